(* A sender that encodes one message after the other, and a receiver that decodes them, as programs on the Java text. *)
From Coq Require Import ZArith List Bool String.
From Verif.Model Require Import JavaPrim ByteBuf Ast Interp Show Heap.
From Verif.Spec Require Import Bytes Wire Sharing JavaState JavaRun.
From Verif.Java Require Import Syntax Sem.
Import ListNotations.

(* o1.encode(buf); o2.encode(buf); ... *)
Fixpoint sends (pr : printers) (k d : nat) (ls : list nat) (s : st) : res unit :=
  match ls with
  | [] => Ret tt s
  | l :: r => do x s1 <- invoke pr k d l "encode" [JBuf] s; sends pr k d r s1
  end.
(* o1 = new C1(); o1.decode(buf); o2 = new C2(); o2.decode(buf); ... *)
Fixpoint receives (pr : printers) (k d : nat) (cs : list string) (s : st) : res (list nat) :=
  match cs with
  | [] => Ret [] s
  | c :: r =>
      do o s1 <- create_new c s;
      match o with
      | JT _ (HRef l) => do x s2 <- invoke pr k d l "decode" [JBuf] s1; do ls s3 <- receives pr k d r s2; Ret (l :: ls) s3
      | _ => Bad
      end
  end.

(* a message: where it is, its class, what it stands for *)
Record message := { place : nat; kind : string; means : val }.
(* the messages with their length and checksum fields filled in, if what is unread in the buffer before is pre *)
Fixpoint filled (Y : layouts) (sums : string -> option (list Z -> Z)) (pre : list Z) (ms : list message) : list message :=
  match ms with
  | [] => []
  | m :: r => let t := fill_in Y sums pre (means m) (WObj (kind m)) in {| place := place m; kind := kind m; means := t |} :: filled Y sums (pre ++ ser Y t (WObj (kind m))) r
  end.
Definition wires (Y : layouts) (ms : list message) : list Z := List.concat (map (fun m => ser Y (means m) (WObj (kind m))) ms).
