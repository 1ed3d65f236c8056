(* Initialising one class when it is first used. *)
From Coq Require Import ZArith List Bool String Ascii Lia.
From Verif.Model Require Import JavaPrim ByteBuf Ast Interp Show Heap Library.
From Verif.Java Require Import Lex Syntax Source Sources Sem CodecTrees Init Lazy Program.
From Verif.Spec Require Import JavaState JavaRun JavaWorld JavaLazy.
From Verif.Proofs Require Import JavaSem JavaClasses JavaNames JavaStart.
Import ListNotations.
Open Scope Z_scope.
Open Scope list_scope.

Definition is_in (x : string) (l : list string) : bool := existsb (String.eqb x) l.
Lemma is_in_iff x l : is_in x l = true <-> In x l.
Proof. unfold is_in. rewrite existsb_exists. split; [intros (y & I & Q); apply String.eqb_eq in Q; now subst|intros I; exists x; rewrite String.eqb_refl; auto]. Qed.
Definition spine : list string := map fst (all_untouched lib_program).
Definition over_spine (w : string -> jval) : list (string * jval) := map (fun x => (x, w x)) spine.
(* the classes of N are initialised *)
Definition turn (N : list string) (w : string -> jval) (x : string) : jval :=
  if is_in x (map mark N) then JB true else match owner lib_program x with Some q => if is_in q N then start_value x else w x | None => w x end.
(* what the initialisers look at: [N] untouched, [D] not; [D]'s final fields *)
Definition seen (N D : list string) (v : string -> jval) (x : string) : jval :=
  if is_in x (map mark N) then JVoid else if is_in x (map mark D) then JB true
  else match owner lib_program x with Some q => if (is_in q D && String.eqb q type_place) || String.eqb q "ChecksumAlgorithms" then start_value x else v x | None => v x end.
Definition inits (q : string) (N D : list string) : Prop := forall pr k d n h b L v,
  touches lib_program pr (304 + k) d (S (S (S n))) q {| s_h := h; s_b := b; s_loc := L; s_stat := over_spine (seen N D v) |}
  = Ret tt {| s_h := h; s_b := b; s_loc := L; s_stat := over_spine (turn N (seen N D v)) |}.
Definition registry_class : string := "ChecksumServiceFactory".
Definition crc16_class : string := "Crc16ChecksumService".
Definition crc32_class : string := "Crc32ChecksumService".
Definition sse_place : string := "sse.SseBinary.BodyMessageFactory".
Ltac runs := intros pr k d n h b L v; vm_compute; reflexivity.
Lemma init_registry0 : inits registry_class [registry_class; crc16_class; crc32_class] []. Proof. runs. Qed.
Lemma init_registry1 : inits registry_class [registry_class; crc16_class] [crc32_class]. Proof. runs. Qed.
Lemma init_registry2 : inits registry_class [registry_class; crc32_class] [crc16_class]. Proof. runs. Qed.
Lemma init_registry3 : inits registry_class [registry_class] [crc16_class; crc32_class]. Proof. runs. Qed.
Lemma init_sse0 : inits sse_place [sse_place; type_place] []. Proof. runs. Qed.
Lemma init_sse1 : inits sse_place [sse_place] [type_place]. Proof. runs. Qed.
(* the classes that need no other *)
Definition alone : list string :=
  [crc16_class; crc32_class; type_place;
   "sample.RootPacket.PayloadMessageFactory"; "risk.RcBinary.BodyMessageFactory"; "szse.ExecutionConfirm.ApplExtendMessageFactory";
   "szse.ExecutionReport.ApplExtendMessageFactory"; "szse.NewOrder.ApplExtendMessageFactory"; "szse.SzseBinary.BodyMessageFactory";
   "bjse.AllegeQuote.ApplExtendMessageFactory"; "bjse.BjseBinary.BodyMessageFactory"; "bjse.ExecutionConfirm.ApplExtendMessageFactory";
   "bjse.ExecutionReport.ApplExtendMessageFactory"; "bjse.NewOrder.ApplExtendMessageFactory"; "bjse.Quote.ApplExtendMessageFactory";
   "bjse.QuoteResponse.ApplExtendMessageFactory"; "bjse.QuoteStatusReport.ApplExtendMessageFactory"; "bjse.TradeCaptureCofirm";
   "bjse.TradeCaptureConfirm.ApplExtendMessageFactory"; "bjse.TradeCaptureReport.ApplExtendMessageFactory"; "bjse.TradeCaptureReportAck.ApplExtendMessageFactory"]%string.
Lemma init_alone : Forall (fun q => inits q [q] []) alone.
Proof. unfold alone. repeat (refine (Forall_cons _ _ _); [runs|]). exact (Forall_nil _). Qed.
