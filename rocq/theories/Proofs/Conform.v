(* What it means for translated classes to follow a table of layouts, and the check that the library does. *)
From Coq Require Import ZArith List Bool String.
From Verif.Model Require Import JavaPrim Ast Interp Library.
From Verif.Spec Require Import Bytes Wire Reading Layouts.
Import ListNotations.
Open Scope Z_scope.

Definition wire_type (w : wire) : ftype :=
  let int n := match n with 1%nat => TByte | 2%nat => TShort | 4%nat => TInt | _ => TLong end in
  let flt n := match n with 4%nat => TFloat | _ => TDouble end in
  (fix go (w : wire) : ftype :=
     match w with
     | WInt n _ | WLen n _ | WSum n _ _ => int n
     | WFlt n _ => flt n
     | WFix _ _ _ | WDyn _ _ => TStr
     | WObj c => TObj c
     | WBody _ => TCodec
     | WList _ _ w' => TList (go w')
     end) w.

Definition compile_eelem (w : wire) : eelem :=
  match w with
  | WInt n o => XInt n o
  | WFlt n o => XFlt n o
  | WFix len pad l => XFix len pad l
  | WDyn n o => XDyn n BE n o
  | _ => XObj
  end.
Fixpoint compile_enc (L : layout) : list estmt :=
  match L with
  | [] => []
  | (f, w) :: L' =>
      match w with
      | WInt n o => EWrite n o f :: compile_enc L'
      | WFlt n o => EWriteF n o f :: compile_enc L'
      | WFix len pad l => EFix f len pad l :: compile_enc L'
      | WDyn n o => EDyn f n BE n o :: compile_enc L'
      | WObj _ => EObj f :: compile_enc L'
      | WBody _ => EObjOpt f :: compile_enc L'
      | WList n o w' => EList f n BE (8 * Z.of_nat n) n o (compile_eelem w') :: compile_enc L'
      | WSum n o alg => ESum alg f :: EWrite n o f :: compile_enc L'
      | WLen n o =>
          match L' with
          | (g, WBody _) :: L'' =>
              EMark (f ++ "Pos") :: EZero n o :: EMark (g ++ "Start") :: EObjOpt g :: EMark (g ++ "End")
              :: EDiff f (g ++ "End") (g ++ "Start") :: EPatch n o (f ++ "Pos") f :: compile_enc L''
          | _ => []
          end
      end
  end.

Definition compile_delem (w : wire) : delem :=
  match w with
  | WInt n o => YInt n o
  | WFlt n o => YFlt n o
  | WFix len pad l => YFix len pad l
  | WDyn n o => YDyn n o
  | WObj c => YObj c
  | _ => YObj ""
  end.
Fixpoint compile_dec (L : layout) : list dstmt :=
  match L with
  | [] => []
  | (f, w) :: L' =>
      match w with
      | WInt n o | WLen n o | WSum n o _ => [DRead n o f]
      | WFlt n o => [DReadF n o f]
      | WFix len pad l => [DFix f len pad l]
      | WDyn n o => [DDyn f n o]
      | WObj c => [DNewIfNull f c; DObj f]
      | WBody k => [DCreate f k; DObj f]
      | WList n o w' => [DList f n o (compile_delem w')]
      end ++ compile_dec L'
  end.

(* well-formed layouts *)
Definition ok_width (n : nat) : bool := match n with 1%nat | 2%nat | 4%nat | 8%nat => true | _ => false end.
Definition ok_count (n : nat) : bool := match n with 2%nat | 4%nat => true | _ => false end.
Definition ok_flt (n : nat) : bool := match n with 4%nat | 8%nat => true | _ => false end.
Definition ok_pad (pad : Z) : bool := (0 <=? pad) && (pad <? 128).
Definition known (Y : layouts) (c : string) : bool := match find c Y with Some _ => true | None => false end.
Definition ok_elem (Y : layouts) (w : wire) : bool :=
  match w with
  | WInt n _ => ok_width n
  | WFlt n _ => ok_flt n
  | WFix len pad _ => (0 <? len) && ok_pad pad
  | WDyn n _ => ok_count n
  | WObj c => known Y c
  | _ => false
  end.
(* [seen]: fields already read, with their formats *)
Fixpoint ok_fields (Y : layouts) (seen L : layout) : bool :=
  match L with
  | [] => true
  | (f, w) :: L' =>
      negb (existsb (fun fw => String.eqb f (fst fw)) seen)
      && match w with
         | WList n _ w' => ok_count n && ok_elem Y w'
         | WBody k => match find k seen with Some (WInt _ _) | Some (WFix _ _ _) => true | _ => false end
         | WLen n _ =>
             Nat.eqb n 4
             && match L' with
                | (g, WBody _) :: _ =>
                    negb (String.eqb f g)
                    && negb (String.eqb (f ++ "Pos") (g ++ "Start")) && negb (String.eqb (f ++ "Pos") (g ++ "End"))
                    && negb (String.eqb (g ++ "Start") (g ++ "End"))
                | _ => false
                end
         | WSum n _ _ => Nat.eqb n 4
         | _ => ok_elem Y w
         end
      && ok_fields Y (seen ++ [(f, w)]) L'
  end.
Definition ok_layouts (Y : layouts) : bool := forallb (fun cL => ok_fields Y [] (snd cL)) Y.

Definition shape (c : string) (cd : class_def) := (c, c_name cd, c_fields cd, c_enc cd, c_dec cd).
Definition compiled (cL : string * layout) :=
  let '(c, L) := cL in (c, c, map (fun fw => (fst fw, wire_type (snd fw))) L, compile_enc L, compile_dec L).
Definition conforms (C : list (string * class_def)) (Y : layouts) : Prop :=
  map (fun ccd => shape (fst ccd) (snd ccd)) C = map compiled Y /\ ok_layouts Y = true.

(* every class of the library follows its layout *)
Theorem library_conforms : conforms lib_classes lib_layouts.
Proof. split; vm_compute; reflexivity. Qed.
