(* Specification of the wire format.

   A layout lists the fields of a message class in wire order (= declaration order) with their formats. *)
From Coq Require Import ZArith List Bool String.
From Verif.Model Require Import JavaPrim Ast.
From Verif.Spec Require Import Bytes.
Import ListNotations.
Open Scope Z_scope.

Inductive wire :=
| WInt (n : nat) (o : endian)                  (* n-byte integer *)
| WFlt (n : nat) (o : endian)                  (* IEEE bits of a float (n=4) or double (n=8) *)
| WFix (len : Z) (pad : Z) (lft : bool)        (* fixed-width string *)
| WDyn (n : nat) (o : endian)                  (* n-byte length, then that many bytes of UTF-8 *)
| WObj (c : string)                            (* a message object of class c *)
| WBody (key : string)                         (* a message object of the class registered for the value of field key *)
| WList (n : nat) (o : endian) (w : wire)      (* n-byte count, then the elements *)
| WLen (n : nat) (o : endian)                  (* byte length of the field that follows *)
| WSum (n : nat) (o : endian) (alg : string).  (* checksum of everything unread before it *)

Definition layout := list (string * wire).
Definition layouts := list (string * layout).

Fixpoint find {A} (k : string) (l : list (string * A)) : option A :=
  match l with
  | [] => None
  | (k', a) :: r => if String.eqb k k' then Some a else find k r
  end.

Definition concat2 {A B} (p : A -> B -> list Z) : list A -> list B -> list Z :=
  fix go l m :=
    match l, m with
    | a :: l', b :: m' => p a b ++ go l' m'
    | _, _ => []
    end.

(* The bytes of a value in a format.  Length and checksum fields contribute the value they hold. *)
Fixpoint ser (Y : layouts) (v : val) (w : wire) {struct v} : list Z :=
  match v, w with
  | VInt z, WInt n o => number o n z
  | VInt z, WLen n o => number o n z
  | VInt z, WSum n o _ => number o n z
  | VFlt z, WFlt n o => number o n z
  | VNull, WFix len pad lft => fixed (Z.to_nat len) pad lft []
  | VStr s, WFix len pad lft => fixed (Z.to_nat len) pad lft s
  | VNull, WDyn n o => number o n 0
  | VStr s, WDyn n o => number o n (Z.of_nat (List.length (utf8 s))) ++ utf8 s
  | VNull, WList n o _ => number o n 0
  | VList l, WList n o w' => number o n (Z.of_nat (List.length l)) ++ flat_map (fun x => ser Y x w') l
  | VObj c fs, WObj _ | VObj c fs, WBody _ =>
      match find c Y with
      | Some L => concat2 (fun fv fw => ser Y (snd fv) (snd fw)) fs L
      | None => []
      end
  | _, _ => []
  end.

(* The object as encode leaves it: length and checksum fields filled in.
   [sums] is the checksum registry, [pre] the unread bytes already in the buffer.  While a body is being encoded its
   length field still holds n zero bytes. *)
Fixpoint fill_in (Y : layouts) (sums : string -> option (list Z -> Z)) (pre : list Z) (v : val) (w : wire) {struct v} : val :=
  match v with
  | VList l =>
      match w with
      | WList n o w' =>
          VList ((fix go (pre : list Z) (l : list val) : list val :=
                    match l with
                    | [] => []
                    | x :: r => let x' := fill_in Y sums pre x w' in x' :: go (pre ++ ser Y x' w') r
                    end) (pre ++ number o n (Z.of_nat (List.length l))) l)
      | _ => v
      end
  | VObj c fs =>
      match find c Y with
      | Some L =>
          VObj c ((fix go (pre : list Z) (fs : list (string * val)) (L : layout) : list (string * val) :=
                     match fs, L with
                     | (f, x) :: fs', (_, w) :: L' =>
                         match w with
                         | WLen n o =>
                             match fs', L' with
                             | (g, y) :: fs'', (_, w') :: L'' =>
                                 let y' := fill_in Y sums (pre ++ repeat 0 n) y w' in
                                 let len := Z.of_nat (List.length (ser Y y' w')) in
                                 (f, VInt len) :: (g, y') :: go (pre ++ number o n len ++ ser Y y' w') fs'' L''
                             | _, _ => fs
                             end
                         | WSum n o alg =>
                             let x' := match sums alg with Some c => VInt (wrap 32 (c pre)) | None => x end in
                             (f, x') :: go (pre ++ ser Y x' w) fs' L'
                         | _ => let x' := fill_in Y sums pre x w in (f, x') :: go (pre ++ ser Y x' w) fs' L'
                         end
                     | _, _ => fs
                     end) pre fs L)
      | None => v
      end
  | _ => v
  end.

(* nothing required is missing: sub-objects, object list elements and boxed numbers in lists are not null *)
Definition all2 {A B} (p : A -> B -> bool) : list A -> list B -> bool :=
  fix go l m :=
    match l, m with
    | a :: l', b :: m' => p a b && go l' m'
    | _, _ => true
    end.
Fixpoint complete (Y : layouts) (v : val) (w : wire) {struct v} : bool :=
  match v with
  | VNull => match w with WInt _ _ | WFlt _ _ | WObj _ => false | _ => true end
  | VList l => match w with WList _ _ w' => forallb (fun x => complete Y x w') l | _ => true end
  | VObj c fs => match find c Y with
                 | Some L => all2 (fun fv fw => complete Y (snd fv) (snd fw)) fs L
                 | None => true
                 end
  | _ => true
  end.

(* nesting depth of message objects *)
Definition max_of {A} (f : A -> nat) : list A -> nat :=
  fix go l := match l with [] => O | a :: r => Nat.max (f a) (go r) end.
Fixpoint nesting (v : val) : nat :=
  match v with
  | VObj _ fs => S (max_of (fun fv => nesting (snd fv)) fs)
  | VList l => max_of nesting l
  | _ => O
  end.

(* equality of objects up to null/"" and null/empty list *)
Fixpoint normalize (v : val) : val :=
  match v with
  | VStr [] => VNull
  | VList [] => VNull
  | VList l => VList (map normalize l)
  | VObj c fs => VObj c (map (fun fv => (fst fv, normalize (snd fv))) fs)
  | _ => v
  end.
Definition equivalent (a b : val) : Prop := normalize a = normalize b.

(* the object with its length and checksum fields (and those of its parts) set to 0 *)
Fixpoint forget (Y : layouts) (v : val) (w : wire) {struct v} : val :=
  match v with
  | VList l => match w with WList _ _ w' => VList (map (fun x => forget Y x w') l) | _ => v end
  | VObj c fs =>
      match find c Y with
      | Some L =>
          VObj c ((fix go (fs : list (string * val)) (L : layout) : list (string * val) :=
                     match fs, L with
                     | (f, x) :: fs', (_, w) :: L' =>
                         (f, match w with WLen _ _ | WSum _ _ _ => VInt 0 | _ => forget Y x w end) :: go fs' L'
                     | _, _ => fs
                     end) fs L)
      | None => v
      end
  | _ => v
  end.
