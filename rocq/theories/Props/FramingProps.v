(* C53: cutting a stream into frames by the length field. *)
From Coq Require Import ZArith List Bool String Lia.
From Verif.Model Require Import JavaPrim ByteBuf Checksum Ast Interp Factory Library.
From Verif.Spec Require Import Bytes Buffers Wire Layouts Streams Framing.
From Verif.Proofs Require Import BytesFacts BufFacts Conform TableFacts Messages FramingFacts.
From Verif.Props Require Import Samples FrameProps.
Import ListNotations.
Open Scope Z_scope.

(* frames encoded one after another, followed by an incomplete one (or nothing), are cut apart exactly where encode put them,
   whatever the objects are *)
Theorem C53_stream_cut_into_frames : forall c off lf o bf after, In (c, off, lf, o, bf, after) frames ->
  forall E d vs b v1s b1, classes E = lib_classes -> (forall v, In v vs -> object_of E c v = true) -> buf_wf b = true ->
  encode_seq E d vs b = (None, v1s, b1) ->
  exists fs, appended b (List.concat fs) b1 /\ fs = map (fun v1 => ser Y v1 (WObj c)) v1s
    /\ forall rest, next_frame off o after rest = None -> frames_in off o after (List.concat fs ++ rest) = (fs, rest).
Proof.
  intros c off lf o bf after Hin E d vs b v1s b1 HE Hv Hb He.
  assert (X : exists fs, appended b (List.concat fs) b1 /\ fs = map (fun v1 => ser Y v1 (WObj c)) v1s /\ Forall (framed off o after) fs).
  { revert b v1s b1 Hv Hb He. induction vs as [|v vs IH]; intros b v1s b1 Hv Hb He.
    - cbn in He. injection He as <- <-. exists []. split; [apply appended_nil|]. split; constructor.
    - cbn [encode_seq] in He. destruct (encode E d v b) as [[[e|] v1] bm] eqn:Ev; [discriminate|].
      destruct (encode_seq E d vs bm) as [[e r1] be] eqn:Er. injection He as -> <- <-.
      pose proof (Hv v (or_introl eq_refl)) as Hv0.
      destruct (encoded_facts lib_classes Y library_conforms E HE d c v b v1 bm Hv0 Hb Ev) as (_ & _ & _ & _ & A & Wm & _).
      destruct (IH bm r1 be (fun x Hx => Hv x (or_intror Hx)) Wm Er) as (fs & A' & -> & F).
      exists (ser Y v1 (WObj c) :: map (fun v1 => ser Y v1 (WObj c)) r1). cbn [List.concat map].
      split; [eapply appended_trans; eauto|]. split; [reflexivity|]. constructor; auto.
      destruct (C26_length_field_measures_body c off lf o bf after Hin E d v b v1 bm HE Hv0 Hb Ev) as (head & body & tail & A2 & L1 & L2 & _).
      pose proof (app_content _ _ _ A) as Q. rewrite (app_content _ _ _ A2) in Q. apply app_inv_head in Q.
      exists head, body, tail. split; [symmetry; exact Q|]. split; auto. split; auto.
      apply buf_wf_iff in Wm. pose proof (appended_small _ _ _ Wm A) as S. rewrite <- Q, !app_length in S. lia. }
  destruct X as (fs & A & M & F). exists fs. split; auto. split; auto. intros rest N. apply frames_in_framed; auto.
Qed.
(* hence a receiver may decode each piece on its own: the pieces are the encoded messages (C22, C24) *)
(* not so for BjseBinary, whose length field is whatever the object held *)
Theorem C53_bjse_refuted : exists v, object_of lib_env "bjse.BjseBinary" v = true
  /\ (let '(e, v1, b1) := encode lib_env 3 v empty_buf in e = None /\ frames_in 4 LE 4 (content b1) <> ([content b1], [])).
Proof. exists s_bjse. vm_compute. repeat split. discriminate. Qed.
Example C53_meets :
  let '(e, v1s, b1) := encode_seq lib_env 9 [s_root; s_root_nested; s_root] used_buf in
  e = None /\ next_frame 2 LE 4 [1; 0; 200; 0; 0; 0; 5] = None
  /\ (let '(fs, rest) := frames_in 2 LE 4 (skipn 3 (content b1) ++ [1; 0; 200; 0; 0; 0; 5]) in
      map (@List.length Z) fs = [91; 48; 91]%nat /\ rest = [1; 0; 200; 0; 0; 0; 5]).
Proof. vm_compute. repeat split. Qed.

Print Assumptions C53_stream_cut_into_frames.
Print Assumptions C53_bjse_refuted.
