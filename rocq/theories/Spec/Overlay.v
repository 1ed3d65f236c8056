(* Decoding into an object that was used before: how its old field values show through. *)
From Coq Require Import ZArith List Bool String.
From Verif.Model Require Import JavaPrim Ast.
From Verif.Spec Require Import Bytes Wire Reading.
Import ListNotations.
Open Scope Z_scope.

(* [overlay Y w old fresh v]: a field of format w held old, now holds v; in a new object it would hold fresh.
   Either there is no difference, or the field was not assigned (a new object keeps its initial value, this one its old value),
   or it is a sub-object and the same holds for its fields. *)
Inductive overlay (Y : layouts) : wire -> val -> val -> val -> Prop :=
| ov_same w old v : overlay Y w old v v
| ov_kept w old : overlay Y w old (blank_val w) old
| ov_in c L os fresh fs : find c Y = Some L -> overlays Y L os fresh fs -> overlay Y (WObj c) (VObj c os) (VObj c fresh) (VObj c fs)
with overlays (Y : layouts) : layout -> list (string * val) -> list (string * val) -> list (string * val) -> Prop :=
| ovs_nil : overlays Y [] [] [] []
| ovs_cons f w L old os x fresh v fs : overlay Y w old x v -> overlays Y L os fresh fs ->
    overlays Y ((f, w) :: L) ((f, old) :: os) ((f, x) :: fresh) ((f, v) :: fs).

(* [clean Y old v w]: nothing of old shows through after decoding the bytes of v: where v has a zero length or count, old is null *)
Fixpoint clean (Y : layouts) (old v : val) (w : wire) {struct v} : bool :=
  let null (x : val) := match x with VNull => true | _ => false end in
  match w with
  | WDyn _ _ => null old || negb (match text v with [] => true | _ => false end)
  | WList _ _ _ => null old || match v with VList (_ :: _) => true | _ => false end
  | WObj _ =>
      match old, v with
      | VObj _ os, VObj c fs =>
          match find c Y with
          | Some L =>
              (fix go (fs : list (string * val)) (L : layout) (os : list (string * val)) : bool :=
                 match fs, L, os with
                 | (f, x) :: fs', (_, wx) :: L', (_, o) :: os' => clean Y o x wx && go fs' L' os'
                 | _, _, _ => true
                 end) fs L os
          | None => true
          end
      | _, _ => true
      end
  | _ => true
  end.

(* no field of the class, nor of its sub-objects (up to n levels down), has a length or count prefix *)
Fixpoint steady (Y : layouts) (n : nat) (w : wire) : bool :=
  match w with
  | WDyn _ _ | WList _ _ _ => false
  | WObj c => match n, find c Y with
              | S n', Some L => forallb (fun fw => steady Y n' (snd fw)) L
              | _, _ => false
              end
  | _ => true
  end.
