(* One thread alone with one message type, or one class, of SseBinary.BodyMessageFactory: the answers it gets about it. *)
From Coq Require Import ZArith List Bool String.
From Verif.Model Require Import JavaPrim ByteBuf Factory FactoryThreads.
Import ListNotations.

(* calls that may change what create(t), what getMsgType(clazz) returns *)
Definition touches_tag (t : Z) (o : fcall) : Prop := match o with PReg _ t' _ => t' = t | PRem t' => t' = t | _ => False end.
Definition touches_class (clazz : string) (o : fcall) : Prop := match o with PReg cl _ _ => cl = clazz | _ => False end.
Definition about_tag (t : Z) (a : fanswer) : bool := match a with QReg _ t' _ => Z.eqb t' t | QRem t' _ => Z.eqb t' t | QCreate t' _ => Z.eqb t' t | QType _ _ => false end.
Definition about_class (clazz : string) (a : fanswer) : bool := match a with QReg cl _ _ => String.eqb cl clazz | QType cl _ => String.eqb cl clazz | _ => false end.

(* cur: the class create(t) makes *)
Fixpoint alone_tag (t : Z) (cur : option string) (p : list fcall) : list fanswer :=
  match p with
  | [] => []
  | PReg cl t' c :: r => if Z.eqb t' t then QReg cl t' c :: alone_tag t (Some c) r else alone_tag t cur r
  | PRem t' :: r => if Z.eqb t' t then QRem t' (match cur with Some _ => true | None => false end) :: alone_tag t None r else alone_tag t cur r
  | PCreate t' :: r => if Z.eqb t' t then QCreate t' (match cur with Some c => inr c | None => inl IAE end) :: alone_tag t cur r else alone_tag t cur r
  | PType _ :: r => alone_tag t cur r
  end.
(* cur: the number getMsgType(clazz) returns *)
Fixpoint alone_class (clazz : string) (cur : option Z) (p : list fcall) : list fanswer :=
  match p with
  | [] => []
  | PReg cl t c :: r => if String.eqb cl clazz then QReg cl t c :: alone_class clazz (Some t) r else alone_class clazz cur r
  | PType cl :: r => if String.eqb cl clazz then QType cl cur :: alone_class clazz cur r else alone_class clazz cur r
  | _ :: r => alone_class clazz cur r
  end.
Definition fdone (u : fthread) : Prop := ftodo u = [] /\ fmid u = None.
