(* The names in the library's trees have no dots, and its classes have the library's names. *)
From Coq Require Import List Bool String Ascii.
From Verif.Model Require Import Interp.
From Verif.Java Require Import Syntax Sem Program.
From Verif.Spec Require Import JavaWorld.
Import ListNotations.
Open Scope list_scope.

Definition plain_ty (t : ty) : bool := match t with Ty c _ | TyDia c => dotless c | _ => true end.
Fixpoint plain (e : expr) : bool :=
  match e with
  | EName x => dotless x
  | EField a x => plain a && dotless x
  | ECall a _ args => plain a && forallb plain args
  | ECallU _ args => forallb plain args
  | ENew t args => plain_ty t && forallb plain args
  | ENewArr _ n => plain n
  | EIndex a i => plain a && plain i
  | ECast t a => plain_ty t && plain a
  | EParen a | ENot a | EInv a | EInc a | EDec a => plain a
  | EBin _ a b | EAsg _ a b => plain a && plain b
  | ERef c | EClass c => dotless c
  | _ => true
  end.
Fixpoint plain_stmt (c : stmt) : bool :=
  match c with
  | SLocal _ _ (Some e) | SExpr e | SReturn (Some e) | SThrow e => plain e
  | SIf e a b => plain e && plain_stmt a && match b with Some d => plain_stmt d | None => true end
  | SFor _ _ i c u b => plain i && plain c && plain u && plain_stmt b
  | SEach _ _ e b => plain e && plain_stmt b
  | SWhile c b | SDo b c => plain c && plain_stmt b
  | SBlock ss => forallb plain_stmt ss
  | _ => true
  end.
Definition plain_member (m : member) : bool :=
  match m with
  | MField _ _ x (Some e) => dotless x && plain e
  | MMethod _ _ _ _ _ _ (Some b) | MCtor _ _ _ b | MStatic b => forallb plain_stmt b
  | _ => true
  end.
Definition plain_class (d : jclass) : bool :=
  match d with Class _ _ _ _ ss cs ms => forallb plain_ty ss && forallb (fun c => dotless (fst c) && forallb plain (snd c)) cs && forallb plain_member ms end.
Lemma library_plain : forallb (fun qc => library_name (fst qc) && plain_class (snd qc)) lib_program = true.
Proof. vm_compute. reflexivity. Qed.
Lemma library_class c d : assoc c lib_program = Some d -> library_name c = true /\ plain_class d = true.
Proof.
  intros A. assert (I : In (c, d) lib_program).
  { revert A. generalize lib_program. clear. induction p as [|[c' d'] p IH]; cbn; [discriminate|]. destruct (String.eqb_spec c c') as [->|]; [intros [= ->]; auto|auto]. }
  pose proof library_plain as Q. rewrite forallb_forall in Q. specialize (Q _ I). apply andb_true_iff in Q. exact Q.
Qed.

(* ---------- names ---------- *)
Lemma head_app c y : head (c ++ String "." y)%string = head c.
Proof. induction c as [|a c IH]; cbn; [reflexivity|]. destruct (Ascii.eqb a "."); [reflexivity|now rewrite IH]. Qed.
Lemma name_below c y : library_name c = true -> library_name (c ++ "." ++ y)%string = true.
Proof. unfold library_name. cbn [append]. rewrite head_app. auto. Qed.
Lemma append_assoc (a b c : string) : ((a ++ b) ++ c = a ++ b ++ c)%string.
Proof. induction a as [|x a IH]; cbn; congruence. Qed.
(* the part before the last dot begins as the whole does, unless there is no dot *)
Lemma parent_from_head : forall s acc cur, (acc = EmptyString \/ exists y, (cur = acc ++ String "." y)%string) ->
  dotless cur = true \/ acc <> EmptyString \/ (exists y, cur = String "." y) ->
  parent_from s acc cur = EmptyString \/ head (parent_from s acc cur) = head (cur ++ s)%string.
Proof.
  induction s as [|a s IH]; intros acc cur A B; cbn [parent_from].
  - destruct A as [->|(y & ->)]; [left; reflexivity|]. right. rewrite append_assoc. cbn [append]. now rewrite head_app.
  - destruct (Ascii.eqb_spec a ".") as [->|N].
    + destruct (IH cur (cur ++ String "." "")%string) as [E|E].
      * right. exists EmptyString. reflexivity.
      * destruct (string_dec cur "") as [->|Nc]; [right; right; exists EmptyString; reflexivity|right; left; exact Nc].
      * left. exact E.
      * right. rewrite E, append_assoc. reflexivity.
    + destruct (IH acc (cur ++ String a "")%string) as [E|E].
      * destruct A as [->|(y & ->)]; [left; reflexivity|right]. exists (y ++ String a "")%string. now rewrite append_assoc.
      * destruct B as [B|[B|(y & ->)]]; [|right; left; exact B|right; right; exists (y ++ String a "")%string; reflexivity].
        left. clear - B N. induction cur as [|b cur IHc]; cbn in *; [apply Ascii.eqb_neq in N; rewrite N; reflexivity|]. apply andb_true_iff in B. destruct B as [-> B]. rewrite (IHc B). reflexivity.
      * left. exact E.
      * right. rewrite E, append_assoc. reflexivity.
Qed.
Lemma name_parent c : library_name c = true -> library_name (parent c) = true.
Proof.
  intros L. unfold parent. destruct (parent_from_head c EmptyString EmptyString (or_introl eq_refl) (or_introl eq_refl)) as [-> |E]; [reflexivity|]. unfold library_name in *. rewrite E. exact L.
Qed.
Lemma name_known c : library_name c = true -> known c = true. Proof. unfold known. intros ->. reflexivity. Qed.
Lemma dotless_known c : dotless c = true -> known c = true. Proof. unfold known. intros ->. apply orb_true_r. Qed.
