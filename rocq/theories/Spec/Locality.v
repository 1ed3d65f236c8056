(* What an operation may depend on. *)
From Coq Require Import ZArith List Bool String.
From Verif.Model Require Import JavaPrim ByteBuf Ast.
From Verif.Spec Require Import Bytes Wire.
Import ListNotations.
Open Scope Z_scope.

(* no spare capacity behind the writer index, or a netty whose readCharSequence respects the writer index *)
Definition unpadded (b : bytebuf) : Prop := cs_slack b = false \/ widx b = capacity b.

(* no frame in the object has its checksum computed by a registered service *)
Fixpoint unsummed (Y : layouts) (sums : string -> option (list Z -> Z)) (v : val) : bool :=
  match v with
  | VList l => forallb (unsummed Y sums) l
  | VObj c fs =>
      match find c Y with
      | Some L => forallb (fun fw => match snd fw with WSum _ _ alg => match sums alg with Some _ => false | None => true end | _ => true end) L
      | None => true
      end && forallb (fun fv => unsummed Y sums (snd fv)) fs
  | _ => true
  end.
