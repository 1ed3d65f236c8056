(* What an encode may see of a message that other threads change with setters while it runs. *)
From Coq Require Import ZArith List Bool String.
From Verif.Model Require Import JavaPrim Ast Interp Heap EncodeThreads SetterThreads.
From Verif.Spec Require Import Bytes Wire Sharing.
Import ListNotations.

(* number fields and string fields, with what their setters are called: numbers or null, for strings with a length prefix no null *)
Definition settable (Y : layouts) (c f : string) (v : hval) : Prop :=
  exists L w, find c Y = Some L /\ find f L = Some w /\ match w, v with
    | WInt _ _, HRef _ | WFlt _ _, HRef _ | WFix _ _ _, HRef _ => False
    | WInt _ _, _ | WFlt _ _, _ | WFix _ _ _, _ => True
    | WDyn _ _, HStr _ => True
    | _, _ => False
    end.
(* the setters that are called are setters of such fields *)
Definition setters (Y : layouts) (h : heap) (ms : list moment) : Prop :=
  forall l f v, In (Sets l f v) ms -> exists c fs, nth_error h l = Some (CObj c fs) /\ settable Y c f v.
(* a value that is no object and no list *)
Definition scalar (v : hval) : Prop := match v with HRef _ => False | _ => True end.

(* field f of the object at l has the value v at the beginning, or some setter gives it that value *)
Definition held (h : heap) (ms : list moment) (l : nat) (f : string) (v : hval) : Prop := v = field h l f \/ In (Sets l f v) ms.
(* a tree of values such that each field of each object in it has a value the field has held; objects, lists and their elements are those of h.
   Every occurrence of an object is unfolded on its own, as in Sharing.shows *)
Inductive torn (h : heap) (ms : list moment) : hval -> val -> Prop :=
| torn_null : torn h ms HNull VNull
| torn_int z : torn h ms (HInt z) (VInt z)
| torn_flt z : torn h ms (HFlt z) (VFlt z)
| torn_str s : torn h ms (HStr s) (VStr s)
| torn_list l vs ts : nth_error h l = Some (CList vs) -> Forall2 (torn h ms) vs ts -> torn h ms (HRef l) (VList ts)
| torn_obj l c fs gs : nth_error h l = Some (CObj c fs) -> map fst gs = map fst fs ->
    (forall f, In f (map fst fs) -> exists v, held h ms l f v /\ torn h ms v (get f gs)) -> torn h ms (HRef l) (VObj c gs).

(* the values the setters are given are of the types of the fields *)
Definition fitting (C : list (string * class_def)) (h : heap) (ms : list moment) : Prop :=
  forall l f v c fs cd t, In (Sets l f v) ms -> nth_error h l = Some (CObj c fs) -> assoc c C = Some cd -> In (f, t) (c_fields cd) -> fits h v t.
(* the heap the setters give when nobody encodes *)
Definition settings (ms : list moment) (h : heap) : heap := fold_left (fun g m => match m with Turn => g | Sets l f v => put_field g l f v end) ms h.
(* how many turns the thread that encodes has *)
Definition turns (ms : list moment) : nat := List.length (filter (fun m => match m with Turn => true | Sets _ _ _ => false end) ms).
