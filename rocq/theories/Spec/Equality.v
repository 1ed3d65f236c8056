(* Specification of equality of messages. *)
From Coq Require Import ZArith List Bool String.
From Verif.Model Require Import JavaPrim Ast.
From Verif.Spec Require Import Bytes Wire.
Import ListNotations.
Open Scope Z_scope.

(* IEEE 754: NaN is an exponent of ones and a mantissa other than zero, whatever the sign *)
Definition nan_float (z : Z) : bool := 2139095040 <? z mod 2 ^ 31.
Definition nan_double (z : Z) : bool := 9218868437227405312 <? z mod 2 ^ 63.

(* the value with every NaN in a float or double field replaced by the same one; 0.0 and -0.0 stay different *)
Fixpoint one_nan (Y : layouts) (v : val) (w : wire) {struct v} : val :=
  match v with
  | VFlt z => match w with
              | WFlt 4 _ => if nan_float z then VFlt 2143289344 else v
              | WFlt _ _ => if nan_double z then VFlt 9221120237041090560 else v
              | _ => v
              end
  | VList l => match w with WList _ _ w' => VList (map (fun x => one_nan Y x w') l) | _ => v end
  | VObj c fs =>
      match find c Y with
      | Some L =>
          VObj c ((fix go (fs : list (string * val)) (L : layout) : list (string * val) :=
                     match fs, L with
                     | (f, x) :: fs', (_, w) :: L' => (f, one_nan Y x w) :: go fs' L'
                     | _, _ => fs
                     end) fs L)
      | None => v
      end
  | _ => v
  end.

(* some object inside is of a class without fields *)
Fixpoint has_void (Y : layouts) (v : val) : bool :=
  match v with
  | VList l => existsb (has_void Y) l
  | VObj c fs => match find c Y with Some [] => true | _ => existsb (fun fv => has_void Y (snd fv)) fs end
  | _ => false
  end.

(* hash codes, as documented for String, List, Arrays, Long, Float and Double: h1*31^(n-1) + ... + hn*31^0, in 32 bits *)
Fixpoint weigh (hs : list Z) : Z := match hs with [] => 0 | h :: r => h * 31 ^ Z.of_nat (List.length r) + weigh r end.
Definition as_int (z : Z) : Z := (z + 2 ^ 31) mod 2 ^ 32 - 2 ^ 31.
Definition hash_list (hs : list Z) : Z := as_int (31 ^ Z.of_nat (List.length hs) + weigh hs).
(* the two halves of 64 bits *)
Definition hash_long (z : Z) : Z := as_int (Z.lxor (z mod 2 ^ 32) ((z / 2 ^ 32) mod 2 ^ 32)).
Fixpoint digest (Y : layouts) (v : val) (w : wire) {struct v} : Z :=
  match v with
  | VNull => 0
  | VInt z => match w with WInt 8 _ => hash_long z | _ => z end
  | VFlt z => match w with
              | WFlt 4 _ => as_int (if nan_float z then 2143289344 else z)
              | _ => hash_long (if nan_double z then 9221120237041090560 else z)
              end
  | VStr s => as_int (weigh s)
  | VList l => match w with WList _ _ w' => hash_list (map (fun x => digest Y x w') l) | _ => 0 end
  | VObj c fs =>
      match find c Y with
      | Some L => hash_list ((fix go (fs : list (string * val)) (L : layout) : list Z :=
                     match fs, L with
                     | (f, x) :: fs', (_, w) :: L' => digest Y x w :: go fs' L'
                     | _, _ => []
                     end) fs L)
      | None => 0
      end
  end.
