(* The classes of /repo/**/src/main/java by name, from the trees of their files.  The key of a message class is the name Gen*.v gives it:
   module instead of package ("sample.RootPacket"); nested classes follow after a dot. *)
From Coq Require Import List String.
From Verif.Model Require Import Ast.
From Verif.Java Require Import Syntax Sources Sem CodecTrees FilesSample FilesRisk FilesSse FilesSzse FilesBjse.
Import ListNotations.
Open Scope list_scope.

Definition class_name (c : jclass) : string := match c with Class _ _ n _ _ _ _ => n end.
(* a class and the classes declared in it *)
Fixpoint flatten (q : string) (c : jclass) : list (string * jclass) :=
  match c with
  | Class mods kind name tps supers consts ms =>
      (q, c) :: (fix nested (ms : list member) : list (string * jclass) :=
                   match ms with
                   | [] => []
                   | MClass d :: r => (flatten (q ++ "." ++ class_name d)%string d ++ nested r)%list
                   | _ :: r => nested r
                   end) ms
  end.
Definition message_files : list source := sample_files ++ risk_files ++ sse_files ++ szse_files ++ bjse_files.
Definition key_of (s : source) : string := c_name (sc_def (s_main s)).
Definition message_program : program := flat_map (fun s => flatten (key_of s) (f_class (tree s))) message_files.
Definition lib_program : program := codec_classes ++ message_program.
