(* toString of the message classes, and their getters and setters.
   The Java text of the forms is in Ast.v (c_tag, c_str, c_get, c_set); every class of GenSample.v ... GenBjse.v cites its methods.
   Not code of /repo: string concatenation (JLS 15.18.1), Integer.toString, AbstractCollection.toString.
   Simplifications: a list prints as the collections of java.util do ("[a, b]"); Float.toString and Double.toString are
   left open - any two functions from the bits to text. *)
From Coq Require Import ZArith List Bool String Ascii.
From Verif.Model Require Import JavaPrim ByteBuf Ast Interp.
Import ListNotations.
Open Scope Z_scope.

(* Integer.toString, Long.toString (byte and short are promoted to int): digits from the low end; [fuel] = number of bits *)
Fixpoint show_digits (fuel : nat) (z : Z) (acc : list Z) : list Z :=
  match fuel with
  | O => acc
  | S k => let acc' := (48 + z mod 10) :: acc in if z <? 10 then acc' else show_digits k (z / 10) acc'
  end.
Definition show_int (z : Z) : list Z :=
  if z <? 0 then 45 :: show_digits 64 (- z) [] else show_digits 64 z [].

Record printers := { show_float : Z -> list Z; show_double : Z -> list Z }.

Section Show.
  Variable P : printers.
  Variable showo : val -> option (list Z).    (* toString of a message object one frame deeper; None = StackOverflowError *)
  (* String.valueOf of a field value of declared type [t] *)
  Fixpoint show_val (t : ftype) (v : val) {struct v} : option (list Z) :=
    match v with
    | VNull => Some (chars "null")
    | VInt z => Some (show_int z)
    | VFlt z => Some (match t with TFloat => show_float P z | _ => show_double P z end)
    | VStr s => Some s
    | VList l =>
        let t' := match t with TList u => u | _ => TCodec end in
        match (fix go (l : list val) : option (list Z) :=
                 match l with
                 | [] => Some []
                 | x :: r => match show_val t' x, go r with
                             | Some a, Some b => Some (match r with [] => a | _ => a ++ chars ", " ++ b end)
                             | _, _ => None
                             end
                 end) l with
        | Some a => Some (chars "[" ++ a ++ chars "]")
        | None => None
        end
    | VObj _ _ => showo v
    end.
  (* + "l1=" + this.f1 + ", l2=" + this.f2 ... *)
  Fixpoint show_fields (ts : list (string * ftype)) (first : bool) (ls : list (string * string)) (fs : list (string * val)) : option (list Z) :=
    match ls with
    | [] => Some []
    | (l, f) :: r =>
        match show_val (type_of f ts) (get f fs), show_fields ts false r fs with
        | Some a, Some b => Some ((if first then [] else chars ", ") ++ chars l ++ chars "=" ++ a ++ b)
        | _, _ => None
        end
    end.
End Show.
(* v.toString() *)
Fixpoint jstring_of (E : env) (P : printers) (d : nat) (v : val) : option (list Z) :=
  match d with
  | O => None
  | S d' =>
      match v with
      | VObj c fs =>
          match find_class E c with
          | Some cd => match show_fields P (jstring_of E P d') (c_fields cd) true (c_str cd) fs with
                       | Some a => Some (chars (c_tag cd) ++ chars " [" ++ a ++ chars "]")
                       | None => None
                       end
          | None => None
          end
      | _ => None
      end
  end.

(* v.m() for a getter m; None: no such method *)
Definition call_get (E : env) (v : val) (m : string) : option val :=
  match v with
  | VObj c fs => match find_class E c with
                 | Some cd => match assoc m (c_get cd) with Some f => Some (get f fs) | None => None end
                 | None => None
                 end
  | _ => None
  end.
(* v.m(x) for a setter m: the object afterwards; None: no such method *)
Definition call_set (E : env) (v : val) (m : string) (x : val) : option val :=
  match v with
  | VObj c fs => match find_class E c with
                 | Some cd => match assoc m (c_set cd) with Some f => Some (VObj c (set f x fs)) | None => None end
                 | None => None
                 end
  | _ => None
  end.
