(* Specification of reading: what decoding the bytes of a value gives, and for which values that is the value itself. *)
From Coq Require Import ZArith List Bool String.
From Verif.Model Require Import JavaPrim Ast Utf8.
From Verif.Spec Require Import Bytes Wire.
Import ListNotations.
Open Scope Z_scope.

(* field values of a new object *)
Definition blank_val (w : wire) : val :=
  match w with
  | WInt _ _ | WLen _ _ | WSum _ _ _ => VInt 0
  | WFlt _ _ => VFlt 0
  | _ => VNull
  end.
Definition blank (L : layout) : list (string * val) := map (fun fw => (fst fw, blank_val (snd fw))) L.
Definition blank_obj (Y : layouts) (c : string) : val :=
  match find c Y with Some L => VObj c (blank L) | None => VNull end.

(* null and "" are the same on the wire *)
Definition text (v : val) : list Z := match v with VStr s => s | _ => [] end.

(* a fixed-width string read back: bytes decoded (malformed UTF-8 replaced by U+FFFD), pads stripped *)
Definition reread (len : Z) (pad : Z) (lft : bool) (s : list Z) : list Z :=
  strip pad lft (utf8_decode (fixed (Z.to_nat len) pad lft s)).

(* [absorb old v w]: what a field holding [old] holds after decoding the bytes of [v] into it.
   A zero length or count leaves the field alone; a sub-object is decoded in place; a body is always a new object;
   empty strings in a list of dynamic strings vanish. *)
Fixpoint absorb (Y : layouts) (old v : val) (w : wire) {struct v} : val :=
  match w with
  | WFix len pad lft => VStr (reread len pad lft (text v))
  | WDyn _ _ => match text v with [] => old | s => VStr (utf8_decode (utf8 s)) end
  | WList _ _ w' =>
      match v with
      | VList ((_ :: _) as l) =>
          VList (flat_map (fun x => match w', text x with
                                    | WDyn _ _, [] => []
                                    | _, _ => [absorb Y VNull x w']
                                    end) l)
      | _ => old
      end
  | WObj _ | WBody _ =>
      match v with
      | VObj c fs =>
          match find c Y with
          | Some L =>
              let olds := match w, old with WObj _, VObj _ os => os | _, _ => blank L end in
              VObj c ((fix go (fs : list (string * val)) (L : layout) (os : list (string * val)) : list (string * val) :=
                         match fs, L, os with
                         | (f, x) :: fs', (_, wx) :: L', (_, o) :: os' => (f, absorb Y o x wx) :: go fs' L' os'
                         | _, _, _ => []
                         end) fs L olds)
          | None => v
          end
      | _ => v
      end
  | _ => v
  end.

(* the tag a reader finds in field k *)
Definition tag_of (v : val) (w : wire) : option key :=
  match w, v with
  | WFix len pad lft, _ => Some (KStr (reread len pad lft (text v)))
  | WInt _ _, VInt z => Some (KInt z)
  | _, _ => None
  end.
Fixpoint tag (k : string) (fs : list (string * val)) (L : layout) : option key :=
  match fs, L with
  | (f, x) :: fs', (_, w) :: L' => if String.eqb k f then tag_of x w else tag k fs' L'
  | _, _ => None
  end.

Definition short_enough (n : nat) {A} (l : list A) : bool := Z.of_nat (List.length l) <=? max_prefix n.

(* the bytes of the value can be found again by a reader: length prefixes hold the true length, nothing is missing, left-padded
   strings are not empty, and the body has the class registered (in F, by owning class) for its tag *)
Fixpoint parsable (Y : layouts) (F : string -> key -> option string) (v : val) (w : wire) {struct v} : bool :=
  match w with
  | WFix _ _ lft => negb lft || negb (match text v with [] => true | _ => false end)
  | WDyn n _ => short_enough n (utf8 (text v))
  | WList n _ w' => match v with
                    | VList l => short_enough n l && forallb (fun x => parsable Y F x w') l
                    | _ => true
                    end
  | WObj _ | WBody _ =>
      match v with
      | VObj c fs =>
          match find c Y with
          | Some L =>
              all2 (fun fv fw =>
                      parsable Y F (snd fv) (snd fw)
                      && match snd fw, snd fv with
                         | WBody k, VObj c' _ =>
                             match tag k fs L with
                             | Some t => match F c t with Some c'' => String.eqb c' c'' | None => false end
                             | None => false
                             end
                         | _, _ => true
                         end) fs L
          | None => false
          end
      | _ => false
      end
  | WInt _ _ | WFlt _ _ => negb (match v with VNull => true | _ => false end)
  | _ => true
  end.

(* the strings of the value survive: valid UTF-16, fitting their fixed width, no pad char at the padded side, no empty
   element in a list of dynamic strings *)
Fixpoint canonical (Y : layouts) (v : val) (w : wire) {struct v} : bool :=
  match w with
  | WFix len pad lft =>
      let s := text v in
      valid16 s && (Z.of_nat (List.length (utf8 s)) <=? len)
      && negb (match (if lft then s else rev s) with c :: _ => c =? pad | [] => false end)
  | WDyn _ _ => valid16 (text v)
  | WList _ _ w' =>
      match v with
      | VList l => forallb (fun x => canonical Y x w'
                                     && match w', text x with WDyn _ _, [] => false | _, _ => true end) l
      | _ => true
      end
  | WObj _ | WBody _ =>
      match v with
      | VObj c fs => match find c Y with
                     | Some L => all2 (fun fv fw => canonical Y (snd fv) (snd fw)) fs L
                     | None => true
                     end
      | _ => true
      end
  | _ => true
  end.

(* additionally: no null where decode puts "", no "" or empty list where decode leaves null *)
Fixpoint exact_form (Y : layouts) (v : val) (w : wire) {struct v} : bool :=
  match w with
  | WFix _ _ _ => match v with VStr _ => true | _ => false end
  | WDyn _ _ => match v with VStr [] => false | _ => true end
  | WList _ _ w' =>
      match v with
      | VList [] => false
      | VList l => forallb (fun x => exact_form Y x w') l
      | _ => true
      end
  | WObj _ | WBody _ =>
      match v with
      | VObj c fs => match find c Y with
                     | Some L => all2 (fun fv fw => exact_form Y (snd fv) (snd fw)) fs L
                     | None => true
                     end
      | _ => true
      end
  | _ => true
  end.
