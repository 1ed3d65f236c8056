(* Induction on values. *)
From Coq Require Import ZArith List String.
From Verif.Model Require Import Ast.
Import ListNotations.

Section Ind.
  Variable P : val -> Prop.
  Hypothesis Hnull : P VNull.
  Hypothesis Hint : forall z, P (VInt z).
  Hypothesis Hflt : forall z, P (VFlt z).
  Hypothesis Hstr : forall s, P (VStr s).
  Hypothesis Hlist : forall l, Forall P l -> P (VList l).
  Hypothesis Hobj : forall c fs, Forall (fun fv => P (snd fv)) fs -> P (VObj c fs).
  Fixpoint val_ind2 (v : val) : P v :=
    match v with
    | VNull => Hnull
    | VInt z => Hint z
    | VFlt z => Hflt z
    | VStr s => Hstr s
    | VList l => Hlist l ((fix go (l : list val) : Forall P l :=
                             match l with
                             | [] => Forall_nil P
                             | x :: r => @Forall_cons _ P x r (val_ind2 x) (go r)
                             end) l)
    | VObj c fs => Hobj c fs ((fix go (fs : list (string * val)) : Forall (fun fv => P (snd fv)) fs :=
                             match fs with
                             | [] => Forall_nil _
                             | fv :: r => @Forall_cons _ (fun fv => P (snd fv)) fv r (val_ind2 (snd fv)) (go r)
                             end) fs)
    end.
End Ind.

Lemma val_eq_dec : forall p q : val, {p = q} + {p <> q}.
Proof.
  fix D 1. intros p q. destruct p, q; try (right; discriminate); try (left; reflexivity).
  - destruct (Z.eq_dec z z0); [left; congruence|right; congruence].
  - destruct (Z.eq_dec bits bits0); [left; congruence|right; congruence].
  - destruct (list_eq_dec Z.eq_dec s s0); [left; congruence|right; congruence].
  - destruct (list_eq_dec D l l0); [left; congruence|right; congruence].
  - destruct (string_dec c c0) as [<-|]; [|right; congruence].
    assert (DF : {fs = fs0} + {fs <> fs0}).
    { revert fs0. induction fs as [|[s v] fs IH]; intros [|[s0 v0] fs0]; try (right; discriminate); [left; reflexivity|].
      destruct (string_dec s s0); [|right; congruence]. destruct (D v v0); [|right; congruence]. destruct (IH fs0); [left; congruence|right; congruence]. }
    destruct DF; [left; congruence|right; congruence].
Defined.
