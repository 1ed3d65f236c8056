(* C50-C52: what encode and decode depend on. *)
From Coq Require Import ZArith List Bool String Lia.
From Verif.Model Require Import JavaPrim ByteBuf Utf8 Checksum Ast Interp Factory Library.
From Verif.Spec Require Import Bytes Buffers Wire Layouts Locality.
From Verif.Proofs Require Import BufFacts Conform TableFacts DecodeFacts Messages Lockstep Twin Depth LocalFacts EqualFacts.
From Verif.Props Require Import Samples.
Import ListNotations.
Open Scope Z_scope.

Notation Y := lib_layouts.

(* ---- C50: too few bytes so far ---- *)
(* For any class table, factories, object and bytes: on the first part of the input decode throws IndexOutOfBounds, or it
   does there what it does on the whole input - same outcome, same object, same number of bytes consumed. *)
Theorem C50_first_part : forall E d v b b' rest, buf_wf b = true -> buf_wf b' = true -> unpadded b' ->
  readable b = readable b' ++ rest ->
  forall e1 v1 b1 e2 v2 b2, decode E d v b = (e1, v1, b1) -> decode E d v b' = (e2, v2, b2) ->
  e2 = Some IOOBE \/ (e1 = e2 /\ v1 = v2 /\ exists n, advanced b n b1 /\ advanced b' n b2).
Proof.
  intros E d v b b' rest H H' U R e1 v1 b1 e2 v2 b2 D D'.
  destruct (lockstep E d v b b' (prefix_cut b b' rest H H' U R)) as [K|(K1 & K2 & n & K3 & K4 & _)]; rewrite ?D, ?D' in *; cbn [re fst snd] in *.
  - left. exact K.
  - right. split; auto. split; auto. exists n. split; assumption.
Qed.
(* a receiver that retries into an equal object whenever IndexOutOfBounds is thrown gets, at the first attempt that does not throw it,
   what decode makes of the whole stream *)
Fixpoint first_try (E : env) (d : nat) (v : val) (tries : list bytebuf) : option (option exn * val * nat) :=
  match tries with
  | [] => None
  | b :: r => match decode E d v b with
              | (Some IOOBE, _, _) => first_try E d v r
              | (e, v1, b1) => Some (e, v1, ridx b1 - ridx b)%nat
              end
  end.
Theorem C50_retry : forall E d v b tries, buf_wf b = true ->
  (forall b', In b' tries -> buf_wf b' = true /\ unpadded b' /\ exists rest, readable b = readable b' ++ rest) ->
  forall e v1 n, first_try E d v tries = Some (e, v1, n) -> exists b1, decode E d v b = (e, v1, b1) /\ advanced b n b1.
Proof.
  intros E d v b tries H. induction tries as [|b' tries IH]; intros T e v1 n F; [discriminate|]. cbn [first_try] in F.
  destruct (T b' (or_introl eq_refl)) as (H' & U & rest & R). destruct (decode E d v b) as [[e0 v0] b0] eqn:D.
  destruct (decode E d v b') as [[e' v'] b1'] eqn:D'.
  destruct (C50_first_part E d v b b' rest H H' U R _ _ _ _ _ _ D D') as [->|(<- & <- & k & A & A')].
  - apply IH; auto. intros x Hx. apply T. right; exact Hx.
  - unfold advanced in A, A'. assert (K : (ridx b1' - ridx b')%nat = k) by (subst b1'; cbn; lia).
    destruct e0 as [[]|]; try (injection F as <- <- <-; exists b0; rewrite K; split; [reflexivity|exact A]).
    apply IH; auto. intros x Hx. apply T. right; exact Hx.
Qed.
(* with spare capacity behind the writer index (netty 4.1.100) an early attempt can return an object made of bytes that never arrived *)
Theorem C50_spare_capacity_refuted : exists b b' rest v1 v2, buf_wf b = true /\ buf_wf b' = true /\ readable b = readable b' ++ rest
  /\ (exists b1, decode lib_env 3 (new_obj lib_env "bjse.Extend050") b = (None, v1, b1))
  /\ (exists b2, decode lib_env 3 (new_obj lib_env "bjse.Extend050") b' = (None, v2, b2)) /\ v1 <> v2.
Proof.
  exists (wrap_bytes [7; 0; 1; 65; 66]),
    {| arr := [7; 0; 1; 65; 88; 88; 88; 88]; ridx := 0; widx := 4; maxcap := 64; cs_slack := true; policy := {| extra := fun _ => O; fill := fun _ => 0 |} |}, [66].
  eexists _, _. split; [reflexivity|]. split; [reflexivity|]. split; [reflexivity|].
  split; [eexists; vm_compute; reflexivity|]. split; [eexists; vm_compute; reflexivity|]. discriminate.
Qed.
Example C50_meets : let '(e, v1, b1) := encode lib_env 9 s_root empty_buf in
  let whole := wrap_bytes (content b1 ++ [1; 2; 3]) in
  let parts := map (fun k => wrap_bytes (firstn k (content b1 ++ [1; 2; 3]))) [0; 3; 40; 91; 93; 94]%nat in
  e = None /\ buf_wf whole = true /\ forallb buf_wf parts = true /\ forallb (fun b => Nat.eqb (widx b) (capacity b)) parts = true
  /\ (let r := first_try lib_env 9 (new_obj lib_env "sample.RootPacket") parts in
      match r with Some (None, v2, 91%nat) => v2 = v1 | _ => False end).
Proof. vm_compute. repeat split. Qed.

(* ---- C51: only the unread bytes matter ---- *)
Theorem C51_decode_sees_only_unread_bytes : forall E d v b b', buf_wf b = true -> buf_wf b' = true -> unpadded b -> unpadded b' ->
  readable b = readable b' ->
  exists e v1 n b1 b1', decode E d v b = (e, v1, b1) /\ decode E d v b' = (e, v1, b1') /\ advanced b n b1 /\ advanced b' n b1'.
Proof.
  intros E d v b b' H H' U U' R. destruct (twins E d v b b' (same_twin b b' H H' U U' R)) as (K1 & K2 & n & K3 & K4).
  destruct (decode E d v b) as [[e v1] b1], (decode E d v b') as [[e' v1'] b1']. cbn [re fst snd] in *. subst e' v1'.
  exists e, v1, n, b1, b1'. auto.
Qed.
Theorem C51_spare_capacity_refuted : exists b b' v1 v2, buf_wf b = true /\ buf_wf b' = true /\ readable b = readable b'
  /\ (exists b1, decode lib_env 3 (new_obj lib_env "bjse.Extend050") b = (None, v1, b1))
  /\ (exists b2, decode lib_env 3 (new_obj lib_env "bjse.Extend050") b' = (None, v2, b2)) /\ v1 <> v2.
Proof.
  pose (mk a := {| arr := a; ridx := 0; widx := 4; maxcap := 64; cs_slack := true; policy := {| extra := fun _ => O; fill := fun _ => 0 |} |}).
  exists (mk [7; 0; 1; 65; 88]), (mk [7; 0; 1; 65; 89]).
  eexists _, _. split; [reflexivity|]. split; [reflexivity|]. split; [reflexivity|].
  split; [eexists; vm_compute; reflexivity|]. split; [eexists; vm_compute; reflexivity|]. discriminate.
Qed.
(* encode: the same bytes and the same object come out whatever is in the buffer, wherever its indices are and however it grows -
   except that a registered checksum also covers the unread bytes *)
Theorem C51_encode_same_bytes : forall E d c v b v1 b1 bs b', classes E = lib_classes -> object_of E c v = true ->
  buf_wf b = true -> buf_wf b' = true -> encode E d v b = (None, v1, b1) -> appended b bs b1 ->
  readable b' = readable b \/ unsummed Y (checksum E) v = true -> fits b' (List.length bs) ->
  exists b1', encode E d v b' = (None, v1, b1') /\ appended b' bs b1'.
Proof. intros E d c v b v1 b1 bs b' HE. exact (encode_local lib_classes Y library_conforms E HE d c v b v1 b1 bs b'). Qed.
Example C51_meets :
  let b := {| arr := [9; 9; 1; 2; 3; 4; 5; 6; 7; 8]; ridx := 2; widx := 10; maxcap := 64; cs_slack := true; policy := policy used_buf |} in
  let b' := wrap_bytes [1; 2; 3; 4; 5; 6; 7; 8] in
  buf_wf b = true /\ buf_wf b' = true /\ widx b = capacity b /\ widx b' = capacity b' /\ readable b = readable b' /\ ridx b <> ridx b'
  /\ unsummed Y (checksum lib_env) s_sse = true /\ unsummed Y (checksum lib_env) s_root = false
  /\ (let '(e, v1, b1) := encode lib_env 9 s_sse used_buf in let '(e2, v2, b2) := encode lib_env 9 s_sse empty_buf in
      e = None /\ e2 = None /\ v1 = v2 /\ skipn 3 (content b1) = content b2).
Proof. vm_compute. repeat split. discriminate. Qed.

(* ---- C52: the size of the stack ---- *)
(* encode and decode do not depend on how much stack there is unless it runs out *)
Theorem C52_stack : forall E d d' v b e v1 b1, (d <= d')%nat -> e <> Some SOE ->
  (encode E d v b = (e, v1, b1) -> encode E d' v b = (e, v1, b1))
  /\ (decode E d v b = (e, v1, b1) -> decode E d' v b = (e, v1, b1)).
Proof.
  intros E d d' v b e v1 b1 Hd He. split; intros H.
  - rewrite <- H. apply encode_deeper; auto. rewrite H. exact He.
  - rewrite <- H. apply decode_deeper; auto. rewrite H. exact He.
Qed.
(* a complete object needs exactly as many frames as its objects are nested *)
Theorem C52_encode_needs : forall E d c v b, classes E = lib_classes -> object_of E c v = true -> buf_wf b = true ->
  complete Y v (WObj c) = true -> fits b (List.length (ser Y (fill_in Y (checksum E) (readable b) v (WObj c)) (WObj c))) ->
  ((exists v1 b1, encode E d v b = (None, v1, b1)) <-> (nesting v <= d)%nat)
  /\ ((exists v1 b1, encode E d v b = (Some SOE, v1, b1)) <-> (d < nesting v)%nat).
Proof.
  intros E d c v b HE Hv Hb Hc Hf. pose proof (encode_total lib_classes Y library_conforms E HE d c v b Hv Hb) as P. cbv zeta in P.
  destruct (encode E d v b) as [[[e|] v'] b1].
  - destruct P as (_ & _ & [[_ R]|[[_ R]|[-> R]]]); [congruence|contradiction|].
    split; split; intros K; try lia; eauto. destruct K as (? & ? & K). discriminate.
  - destruct P as (_ & _ & _ & _ & Hn & _). split; split; intros K; try lia; eauto. destruct K as (? & ? & K). discriminate.
Qed.
Example C52_meets : complete Y s_root (WObj "sample.RootPacket") = true /\ nesting s_root_nested = 3%nat
  /\ map (fun d => fst (fst (encode lib_env d s_root_nested empty_buf))) [0; 1; 2; 3; 4]%nat = [Some SOE; Some SOE; Some SOE; None; None].
Proof. vm_compute. repeat split. Qed.

Print Assumptions C50_first_part.
Print Assumptions C50_retry.
Print Assumptions C50_spare_capacity_refuted.
Print Assumptions C51_decode_sees_only_unread_bytes.
Print Assumptions C51_spare_capacity_refuted.
Print Assumptions C51_encode_same_bytes.
Print Assumptions C52_stack.
Print Assumptions C52_encode_needs.
