(* C46: encoding what was decoded gives the same bytes. *)
From Coq Require Import ZArith List Bool String Lia.
From Verif.Model Require Import JavaPrim ByteBuf Ast Interp Library.
From Verif.Spec Require Import Bytes Buffers Wire Reading Layouts Resend.
From Verif.Proofs Require Import Conform TableFacts Messages ResendFacts.
From Verif.Props Require Import Samples MessageProps.
Import ListNotations.
Open Scope Z_scope.

(* Strings may be over-long, end in pads or have unpaired surrogates, as long as none is cut inside a character, no element of a list of
   dynamic strings is empty and what a left-padded field keeps is not all pads.  The second buffer has the same unread bytes: the checksum
   of a frame covers them (C27). *)
Theorem C46_same_bytes : forall E d d2 c v b v1 b1 bs b2 rest, classes E = lib_classes ->
  object_of E c v = true -> buf_wf b = true -> encode E d v b = (None, v1, b1) ->
  parsable Y (factory E) v (WObj c) = true -> all_strings resendable (fun _ => true) Y v (WObj c) = true -> (nesting v <= d2)%nat ->
  appended b bs b1 -> buf_wf b2 = true -> readable b2 = bs ++ rest ->
  exists v2 b3, decode E d2 (new_obj E c) b2 = (None, v2, b3) /\
    forall d3 b4, (nesting v <= d3)%nat -> buf_wf b4 = true -> readable b4 = readable b -> fits b4 (List.length bs) ->
    exists v3 b5, encode E d3 v2 b4 = (None, v3, b5) /\ appended b4 bs b5.
Proof. intros E d d2 c v b v1 b1 bs b2 rest HE. apply (reencode lib_classes Y library_conforms E HE). Qed.
(* in particular for ASCII strings *)
Theorem C46_ascii : forall E d d2 c v b v1 b1 bs b2 rest, classes E = lib_classes ->
  object_of E c v = true -> buf_wf b = true -> encode E d v b = (None, v1, b1) ->
  parsable Y (factory E) v (WObj c) = true -> all_strings ascii_some ascii Y v (WObj c) = true -> (nesting v <= d2)%nat ->
  appended b bs b1 -> buf_wf b2 = true -> readable b2 = bs ++ rest ->
  exists v2 b3, decode E d2 (new_obj E c) b2 = (None, v2, b3) /\
    forall d3 b4, (nesting v <= d3)%nat -> buf_wf b4 = true -> readable b4 = readable b -> fits b4 (List.length bs) ->
    exists v3 b5, encode E d3 v2 b4 = (None, v3, b5) /\ appended b4 bs b5.
Proof.
  intros E d d2 c v b v1 b1 bs b2 rest HE Hv Hb He Hp Hs. apply (C46_same_bytes E d d2 c v b v1 b1 bs b2 rest HE Hv Hb He Hp).
  revert Hs. apply strings_impl; auto. intros len pad lft s. apply ascii_resendable.
Qed.
(* over-long, ending in pads, null, an unpaired surrogate: not read back as it was, but the bytes are the same *)
Example C46_meets :
  let v := build "sample.StringPacket" [("fieldFixedString1", str "xyz"); ("fieldFixedString10", str "000012345678901"); ("fieldFixedString10Pad", str "  a ");
             ("fieldFixedString10PadWithNullTerminator", VStr [65; 0; 0]); ("fieldFixedString10ListPad", VList [str "a0"; VNull; str "000"]);
             ("fieldDynamicStringList", VList [str "q"])]%string in
  let u := build "sse.Logout" [("text", VStr [233; 55357; 55357; 56832; 32; 32])]%string in
  object_of lib_env "sample.StringPacket" v = true /\ parsable Y (factory lib_env) v (WObj "sample.StringPacket") = true
  /\ all_strings ascii_some ascii Y v (WObj "sample.StringPacket") = true /\ canonical Y v (WObj "sample.StringPacket") = false
  /\ (let '(e1, v1, b1) := encode lib_env 9 v empty_buf in let '(e2, v2, b2) := decode lib_env 9 (new_obj lib_env "sample.StringPacket") b1 in
      let '(e3, v3, b3) := encode lib_env 9 v2 empty_buf in
      e1 = None /\ e2 = None /\ e3 = None /\ v2 <> v1 /\ content b3 = content b1 /\ widx b1 = 80%nat)
  /\ object_of lib_env "sse.Logout" u = true /\ parsable Y (factory lib_env) u (WObj "sse.Logout") = true
  /\ all_strings resendable (fun _ => true) Y u (WObj "sse.Logout") = true /\ canonical Y u (WObj "sse.Logout") = false.
Proof. vm_compute. repeat split; discriminate. Qed.

(* the three exclusions are needed *)
Definition resent (c : string) (v : val) (P : bytebuf -> bytebuf -> Prop) : Prop :=
  object_of lib_env c v = true /\ parsable Y (factory lib_env) v (WObj c) = true
  /\ let '(e1, v1, b1) := encode lib_env 9 v empty_buf in let '(e2, v2, b2) := decode lib_env 9 (new_obj lib_env c) b1 in
     let '(e3, v3, b3) := encode lib_env 9 v2 empty_buf in e1 = None /\ e2 = None /\ e3 = None /\ P b1 b3.
(* é cut in half in a 64-byte field *)
Theorem C46_cut_character_refuted : exists v, resent "sse.Logout" v (fun b1 b3 => content b3 <> content b1).
Proof. exists (build "sse.Logout" [("text", VStr (repeat 97 63 ++ [233]))]%string). vm_compute. repeat split; discriminate. Qed.
(* "0" in a one-character field filled with '0' on the left: the second encode writes one byte less *)
Theorem C46_left_pads_refuted : exists v, resent "sample.StringPacket" v (fun b1 b3 => widx b3 <> widx b1).
Proof.
  exists (build "sample.StringPacket" [("fieldFixedString1", str "0"); ("fieldFixedString10", str "5"); ("fieldFixedString10Pad", str "a")]%string).
  vm_compute. repeat split; discriminate.
Qed.
Theorem C46_empty_element_refuted : exists v, resent "sample.StringPacket" v (fun b1 b3 => widx b3 <> widx b1).
Proof.
  exists (build "sample.StringPacket" [("fieldFixedString1", str "1"); ("fieldFixedString10", str "5"); ("fieldFixedString10Pad", str "a");
    ("fieldDynamicStringList", VList [str "x"; VStr []])]%string).
  vm_compute. repeat split; discriminate.
Qed.

Print Assumptions C46_same_bytes.
Print Assumptions C46_ascii.

Print Assumptions C46_cut_character_refuted.
Print Assumptions C46_left_pads_refuted.
Print Assumptions C46_empty_element_refuted.
