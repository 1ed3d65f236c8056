(* One thread alone with one name of the checksum registry: the answers it gets about that name. *)
From Coq Require Import List Bool String.
From Verif.Model Require Import Checksum Threads.
Import ListNotations.

(* the calls that may change what is registered under n *)
Definition touches (n : string) (o : call) : Prop :=
  match o with CReg s => algorithm s = n | CRem m => m = n | CClear => True | CGet _ => False end.
Definition freeing (n : string) (o : call) : Prop :=
  match o with CRem m => m = n | CClear => True | _ => False end.
Definition about (n : string) (a : answer) : bool :=
  match a with AReg s _ => String.eqb (algorithm s) n | ARem m | AGet m _ => String.eqb m n | AClear => true end.
(* cur: what is registered under n.  The first registration wins until the name is freed *)
Fixpoint expected (n : string) (cur : option service) (p : list call) : list answer :=
  match p with
  | [] => []
  | CReg s :: r => if String.eqb (algorithm s) n
                   then match cur with Some _ => AReg s false :: expected n cur r | None => AReg s true :: expected n (Some s) r end
                   else expected n cur r
  | CRem m :: r => if String.eqb m n then ARem m :: expected n None r else expected n cur r
  | CClear :: r => AClear :: expected n None r
  | CGet m :: r => if String.eqb m n then AGet m cur :: expected n cur r else expected n cur r
  end.
Definition done (t : thread) : Prop := todo t = [] /\ mid t = None.
