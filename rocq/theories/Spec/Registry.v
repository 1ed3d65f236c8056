(* Specification of the checksum registry and the message factories as histories of calls. *)
From Coq Require Import ZArith List Bool String.
From Verif.Model Require Import Checksum Ast.
Import ListNotations.

(* ---- checksum registry: the first registration wins ---- *)
Inductive reg_op := Reg (s : service) | Rem (n : string) | Clear.
Definition registers (n : string) (o : reg_op) : Prop := exists s, o = Reg s /\ algorithm s = n.
Definition frees (n : string) (o : reg_op) : Prop := o = Rem n \/ o = Clear.
(* s is the earliest registration of n since n was last removed or the registry last cleared *)
Definition holder (h : list reg_op) (n : string) (s : service) : Prop :=
  exists start mid post, h = start ++ mid ++ Reg s :: post /\ algorithm s = n
    /\ (start = [] \/ exists p o, start = p ++ [o] /\ frees n o)
    /\ Forall (fun o => ~ registers n o) mid /\ Forall (fun o => ~ frees n o) post.

(* ---- message factory: the last registration wins ---- *)
Inductive fac_op := Put (k : key) (c : string) | Del (k : key).
Definition names (k : key) (o : fac_op) : Prop := (exists c, o = Put k c) \/ o = Del k.
(* c was registered for k and k has not been mentioned since *)
Definition current (h : list fac_op) (k : key) (c : string) : Prop :=
  exists pre post, h = pre ++ Put k c :: post /\ Forall (fun o => ~ names k o) post.
Definition untouched (h : list fac_op) (k : key) : Prop := Forall (fun o => ~ names k o) h.

(* ---- SSE factory: tags and classes ---- *)
Inductive sse_op := SReg (clazz : string) (t : Z) (c : string) | SDel (t : Z).
Definition names_tag (t : Z) (o : sse_op) : Prop := (exists clazz c, o = SReg clazz t c) \/ o = SDel t.
Definition names_class (clazz : string) (o : sse_op) : Prop := exists t c, o = SReg clazz t c.
