(* Object graphs: what a reference stands for, and who refers to what. *)
From Coq Require Import ZArith List Bool String.
From Verif.Model Require Import JavaPrim Ast Interp Heap.
From Verif.Spec Require Import Bytes Wire.
Import ListNotations.
Open Scope Z_scope.

(* the tree of values seen from v: every occurrence of an object is unfolded on its own.  There is none for an object that contains itself *)
Inductive shows (h : heap) : hval -> val -> Prop :=
| shows_null : shows h HNull VNull
| shows_int z : shows h (HInt z) (VInt z)
| shows_flt z : shows h (HFlt z) (VFlt z)
| shows_str s : shows h (HStr s) (VStr s)
| shows_list l vs ts : nth_error h l = Some (CList vs) -> shows_all h vs ts -> shows h (HRef l) (VList ts)
| shows_obj l c fs gs : nth_error h l = Some (CObj c fs) -> map fst gs = map fst fs -> shows_all h (map snd fs) (map snd gs) ->
    shows h (HRef l) (VObj c gs)
with shows_all (h : heap) : list hval -> list val -> Prop :=
| shows_nil : shows_all h [] []
| shows_cons v t vs ts : shows h v t -> shows_all h vs ts -> shows_all h (v :: vs) (t :: ts).

Definition apart (l m : list nat) : Prop := forall i, In i l -> ~ In i m.

(* the same, and no object or list occurs twice: fp lists the locations of all of them *)
Inductive owns (h : heap) : hval -> val -> list nat -> Prop :=
| owns_null : owns h HNull VNull []
| owns_int z : owns h (HInt z) (VInt z) []
| owns_flt z : owns h (HFlt z) (VFlt z) []
| owns_str s : owns h (HStr s) (VStr s) []
| owns_list l vs ts fp : nth_error h l = Some (CList vs) -> owns_all h vs ts fp -> ~ In l fp -> owns h (HRef l) (VList ts) (l :: fp)
| owns_obj l c fs gs fp : nth_error h l = Some (CObj c fs) -> map fst gs = map fst fs -> owns_all h (map snd fs) (map snd gs) fp ->
    ~ In l fp -> owns h (HRef l) (VObj c gs) (l :: fp)
with owns_all (h : heap) : list hval -> list val -> list nat -> Prop :=
| owns_nil : owns_all h [] [] []
| owns_cons v t vs ts fp fps : owns h v t fp -> owns_all h vs ts fps -> apart fp fps -> owns_all h (v :: vs) (t :: ts) (fp ++ fps).

(* the locations that can be reached from v *)
Inductive reach (h : heap) : hval -> nat -> Prop :=
| reach_here l : reach h (HRef l) l
| reach_field l c fs f v m : nth_error h l = Some (CObj c fs) -> In (f, v) fs -> reach h v m -> reach h (HRef l) m
| reach_elem l vs v m : nth_error h l = Some (CList vs) -> In v vs -> reach h v m -> reach h (HRef l) m.

(* f is a length or checksum field of class c *)
Definition computed (Y : layouts) (c f : string) : Prop :=
  exists L w, find c Y = Some L /\ find f L = Some w /\ match w with WLen _ _ | WSum _ _ _ => True | _ => False end.

(* a cell before and after: an object keeps its class and fields, and at most its length and checksum fields have new values, which are numbers *)
Definition touched (Y : layouts) (k k' : cell) : Prop :=
  match k, k' with
  | CObj c fs, CObj c' gs => c' = c /\ map fst gs = map fst fs
      /\ forall i f v w, nth_error fs i = Some (f, v) -> nth_error gs i = Some (f, w) -> w = v \/ (computed Y c f /\ exists z, w = HInt z)
  | _, _ => k' = k
  end.

(* what javac and the generics let a program store in a variable of type t *)
Fixpoint fits (h : heap) (v : hval) (t : ftype) {struct t} : Prop :=
  match t, v with
  | TByte, HInt z => - 2 ^ 7 <= z < 2 ^ 7
  | TShort, HInt z => - 2 ^ 15 <= z < 2 ^ 15
  | TInt, HInt z => - 2 ^ 31 <= z < 2 ^ 31
  | TLong, HInt z => - 2 ^ 63 <= z < 2 ^ 63
  | TFloat, HFlt z => 0 <= z < 2 ^ 32
  | TDouble, HFlt z => 0 <= z < 2 ^ 64
  | TStr, HStr s => Forall (fun u => 0 <= u < 2 ^ 16) s
  | TList u, HRef l => exists vs, nth_error h l = Some (CList vs) /\ (fix all (vs : list hval) : Prop :=
                         match vs with [] => True | x :: r => (x = HNull \/ fits h x u) /\ all r end) vs
  | TObj c, HRef l => exists fs, nth_error h l = Some (CObj c fs)
  | TCodec, HRef l => exists c fs, nth_error h l = Some (CObj c fs)
  | TStr, HNull | TList _, HNull | TObj _, HNull | TCodec, HNull => True
  | _, _ => False
  end.
(* every object has the fields of its class, with values of their types *)
Definition heap_ok (C : list (string * class_def)) (h : heap) : Prop :=
  forall l c fs, nth_error h l = Some (CObj c fs) ->
  exists cd, assoc c C = Some cd /\ Forall2 (fun fv ft => fst fv = fst ft /\ fits h (snd fv) (snd ft)) fs (c_fields cd).

(* the object at m is the value of a field of the object at l, or an element of a list that is *)
Definition part (h : heap) (l m : nat) : Prop :=
  exists c fs f v c' gs, nth_error h l = Some (CObj c fs) /\ In (f, v) fs /\ nth_error h m = Some (CObj c' gs)
    /\ (v = HRef m \/ exists k vs, v = HRef k /\ nth_error h k = Some (CList vs) /\ In (HRef m) vs).
(* parts of parts, n steps down *)
Inductive chain (h : heap) : nat -> nat -> nat -> Prop :=
| chain_here l : chain h 0 l l
| chain_down n l m k : part h l m -> chain h n m k -> chain h (S n) l k.
(* the object at l contains an object, or is one, that contains itself *)
Definition cyclic (h : heap) (l : nat) : Prop := exists i n m, chain h i l m /\ chain h (S n) m m.
(* a cell before and after decode: an existing list keeps its elements, an object its class and its fields *)
Definition preserved (k k' : cell) : Prop :=
  match k, k' with
  | CObj c fs, CObj c' gs => c' = c /\ map fst gs = map fst fs
  | _, _ => k' = k
  end.
