(* C70, C71: bodies and checksum services that users of the library write. *)
From Coq Require Import ZArith List Bool String Lia.
From Verif.Model Require Import JavaPrim ByteBuf Utf8 Codec Ast Interp Library Show Open.
From Verif.Spec Require Import Bytes Buffers Wire Reading Layouts Access Open.
From Verif.Proofs Require Import BytesFacts BufFacts CodecFacts ValInd Conform TableFacts EncodeFacts FillFacts DecodeFacts Messages FrameFacts PrefixDecode FrameDecode OpenFacts OpenFrame OpenLibrary.
From Verif.Props Require Import Samples MessageProps TextProps.
Import ListNotations.
Open Scope Z_scope.
Notation Y := lib_layouts.

(* ---- small facts ---- *)
Lemma get_in g x (l : list (string * val)) : NoDup (map fst l) -> In (g, x) l -> get g l = x.
Proof.
  induction l as [|[h y] l IH]; intros D K; [contradiction|]. cbn [map fst] in D. inversion D as [|a b D1 D2]. subst a b. cbn [get]. destruct K as [[= -> ->]|K]; [rewrite String.eqb_refl; reflexivity|].
  destruct (String.eqb_spec g h) as [->|N]; [exfalso; apply D1; apply (in_map fst) in K; exact K|auto].
Qed.
Lemma set_get_same f x (l : list (string * val)) : In f (map fst l) -> get f (set f x l) = x.
Proof. induction l as [|[h y] l IH]; intros K; [contradiction|]. cbn [set]. destruct (String.eqb_spec f h) as [->|N]; cbn [get]; [rewrite String.eqb_refl; reflexivity|]. destruct (String.eqb_spec f h); [contradiction|]. apply IH. destruct K as [K|K]; [cbn in K; congruence|exact K]. Qed.
Lemma set_get_other f g x (l : list (string * val)) : g <> f -> get g (set f x l) = get g l.
Proof. intros N. induction l as [|[h y] l IH]; [reflexivity|]. cbn [set]. destruct (String.eqb_spec f h) as [->|Q]; cbn [get]; destruct (String.eqb_spec g h) as [->|]; congruence. Qed.
Lemma set_body E c fs A M bf k B x v : classes E = lib_classes -> object_of E c (VObj c fs) = true -> find c Y = Some (A ++ M ++ (bf, WBody k) :: B) -> call_set E (VObj c fs) (setter bf) x = Some v ->
  v = VObj c (set bf x fs) /\ map fst fs = map fst (A ++ M ++ (bf, WBody k) :: B) /\ NoDup (map fst fs).
Proof.
  intros HE Hv HL Hs. destruct (object_class E c _ HE Hv) as (fs' & cd & [= <-] & F & As & Nm & Nd). destruct (library_method_names c cd As) as (_ & _ & N).
  destruct (object_shape lib_classes E HE c _ Hv) as (fs' & [= <-] & Ht). pose proof (fields_ok_names _ _ _ (typed_obj lib_classes Y c fs _ _ library_conforms HL Ht)) as Nf.
  unfold call_set in Hs. rewrite F, (library_setters c cd As), (proj2 (assoc_method setter (c_fields cd) (setter bf) bf N)) in Hs; [injection Hs as <-; auto|].
  split; [reflexivity|]. rewrite <- Nm, Nf. rewrite !map_app. apply in_or_app. right. apply in_or_app. right. left. reflexivity.
Qed.
Lemma framing_parts A M B : framing A M B = true ->
  (M = [] \/ exists lf o, M = [(lf, WLen 4 o)]) /\ (B = [] \/ (exists sf o, B = [(sf, WInt 4 o)]) \/ exists sf o alg, B = [(sf, WSum 4 o alg)]).
Proof.
  unfold framing. intros H. apply andb_true_iff in H as [H HB]. apply andb_true_iff in H as [_ HM]. split.
  - destruct M as [|[lf w] M]; [auto|]. right. destruct w; try discriminate HM. do 5 (destruct n as [|n]; try discriminate HM). destruct M; [|discriminate HM]. eauto.
  - destruct B as [|[sf w] B]; [auto|]. right. destruct w; try discriminate HB; do 5 (destruct n as [|n]; try discriminate HB); (destruct B; [|discriminate HB]); [left|right]; eauto.
Qed.
Lemma computes_careful W E : (forall alg, computes W E alg) -> forall alg s, services W alg = Some s -> careful s.
Proof. intros H alg s Hs b Hb. specialize (H alg). unfold computes in H. rewrite Hs in H. destruct (checksum E alg); [|contradiction]. rewrite H. exact Hb. Qed.
Lemma user_grows W E u U ufs d : find_class E u = None -> users W u = Some U -> appends (u_enc U) -> body_grows E W d (VObj u ufs).
Proof.
  intros Fu HU Ap b x' b' Hb Hc. unfold body_call in Hc. destruct d as [|d]; [discriminate Hc|]. cbn [encode_open] in Hc. rewrite Fu, HU in Hc. destruct (u_enc U ufs b) as [[e fs'] b0] eqn:EU. injection Hc as -> _ ->. exact (Ap ufs b fs' b' Hb EU).
Qed.
Lemma user_call W E u U ufs d b : find_class E u = None -> users W u = Some U ->
  body_call W E (S d) (VObj u ufs) b = let '(e, ufs', b') := u_enc U ufs b in (e, VObj u ufs', b').
Proof. intros Fu HU. unfold body_call. cbn [encode_open]. rewrite Fu, HU. reflexivity. Qed.

(* ---- C70 ---- *)
(* what users write makes no difference to messages made of library objects *)
Theorem C70_library_messages_encode : forall W E d c v b, classes E = lib_classes -> object_of E c v = true -> (forall alg, computes W E alg) -> encode_open W E d v b = encode E d v b.
Proof.
  intros W E d c v b HE Hv HW. destruct (object_shape lib_classes E HE c v Hv) as (fs & -> & Ht).
  apply (encode_closed W E (of_library E)); auto. exact (typed_made E _ HE _ Ht).
Qed.
Theorem C70_library_messages_decode : forall W E d c v b, classes E = lib_classes -> object_of E c v = true -> library_factories E -> decode_open W E d v b = decode E d v b.
Proof.
  intros W E d c v b HE Hv HF. destruct (object_shape lib_classes E HE c v Hv) as (fs & -> & Ht).
  apply (decode_closed W E (of_library E)); auto.
  - intros c0 cd s n _ FC Hs Hn. unfold find_class in FC. rewrite HE in FC.
    assert (K : forallb (fun ccd => forallb (fun s => forallb (fun n => match assoc n lib_classes with Some _ => true | None => false end) (makes s)) (c_dec (snd ccd))) lib_classes = true) by (vm_compute; reflexivity).
    rewrite forallb_forall in K. assert (I : In (c0, cd) lib_classes) by (clear - FC; induction lib_classes as [|[h q] l IH]; [discriminate|]; cbn [assoc] in FC; destruct (String.eqb_spec c0 h) as [->|]; [left; congruence|right; auto]).
    specialize (K _ I). rewrite forallb_forall in K. specialize (K _ Hs). rewrite forallb_forall in K. specialize (K _ Hn). unfold of_library, find_class. rewrite HE. exact K.
  - intros o cd f k t c0 _ _ _ Q. exact (HF o t c0 Q).
  - exact (typed_made E _ HE _ Ht).
Qed.
(* every class of the library with a body has the shape that the theorems below ask for *)
Theorem C70_every_body : forall c L bf k, find c Y = Some L -> In (bf, WBody k) L -> exists A M B, L = A ++ M ++ (bf, WBody k) :: B /\ framing A M B = true.
Proof. exact frame_layout. Qed.
(* a body of a user's class: its encode is called when the header has been written; its bytes become the body, whatever they are; the length field holds
   their number and the checksum covers them; if it throws, encode throws the same and has written no more *)
Theorem C70_user_body : forall W E d c fs A M bf k B u U ufs v b e v1 b1, classes E = lib_classes -> object_of E c (VObj c fs) = true ->
  find c Y = Some (A ++ M ++ (bf, WBody k) :: B) -> framing A M B = true -> find_class E u = None -> users W u = Some U -> appends (u_enc U) -> (forall alg, computes W E alg) ->
  call_set E (VObj c fs) (setter bf) (VObj u ufs) = Some v -> buf_wf b = true -> encode_open W E d v b = (e, v1, b1) ->
  match e with
  | None => exists body ufs' b0 b0', at_body Y v A M b b0 /\ u_enc U ufs b0 = (None, ufs', b0') /\ appended b0 body b0'
      /\ (let frame := bytes_of Y v A ++ length_bytes M (List.length body) ++ body in
          appended b (frame ++ bytes_of Y v1 B) b1 /\ buf_wf b1 = true /\ value bf v1 = VObj u ufs'
          /\ (forall lf n o, In (lf, WLen n o) M -> value lf v1 = VInt (Z.of_nat (List.length body)))
          /\ (forall sf n o alg, In (sf, WSum n o alg) B -> value sf v1 = match checksum E alg with Some s => VInt (wrap 32 (s (readable b ++ frame))) | None => value sf v end)
          /\ (forall g, g <> bf -> (forall n o, ~ In (g, WLen n o) M) -> (forall n o alg, ~ In (g, WSum n o alg) B) -> value g v1 = value g v))
  | Some e => (exists b0 ufs', at_body Y v A M b b0 /\ u_enc U ufs b0 = (Some e, ufs', b1) /\ v1 = VObj c (set bf (VObj u ufs') fs))
      \/ (buf_wf b1 = true /\ (exists bs, appended b bs b1)
          /\ (e = NPE /\ (exists g w, In (g, w) A /\ complete Y (value g v) w = false) \/ e = IOOBE \/ e = SOE /\ ((d <= 1)%nat \/ exists g w, In (g, w) A /\ (d <= nesting (value g v))%nat)))
  end.
Proof.
  intros W E d c fs A M bf k B u U ufs v b e v1 b1 HE Hv HL Fr Fu HU Ap HW Hs Hb He. destruct (set_body E c fs A M bf k B _ v HE Hv HL Hs) as (-> & Nf & Nd).
  destruct d as [|d].
  { cbn [encode_open] in He. injection He as <- <- <-. right. split; [exact Hb|]. split; [exists []; apply appended_nil|]. right. right. split; [reflexivity|]. left. lia. }
  destruct (framing_parts A M B Fr) as [HM HB].
  assert (NdL : NoDup (map fst (A ++ M ++ (bf, WBody k) :: B))) by (rewrite <- Nf; exact Nd).
  assert (Ib : In bf (map fst fs)) by (rewrite Nf, !map_app; apply in_or_app; right; apply in_or_app; right; left; reflexivity).
  assert (Il : forall lf w, In (lf, w) M -> In lf (map fst fs) /\ lf <> bf).
  { intros lf w K. split; [rewrite Nf, !map_app; apply in_or_app; right; apply in_or_app; left; apply (in_map fst) in K; exact K|]. intros ->. rewrite app_assoc, map_app in NdL. cbn [map fst] in NdL. apply NoDup_remove_2 in NdL. apply NdL. apply in_or_app. left. rewrite map_app. apply in_or_app. right. apply (in_map fst) in K. exact K. }
  assert (Is : forall sf w, In (sf, w) B -> In sf (map fst fs) /\ sf <> bf /\ forall lf w', In (lf, w') M -> sf <> lf).
  { intros sf w K. split; [rewrite Nf, !map_app; apply in_or_app; right; apply in_or_app; right; right; apply (in_map fst) in K; exact K|]. split.
    - intros ->. rewrite app_assoc, map_app in NdL. cbn [map fst] in NdL. apply NoDup_remove_2 in NdL. apply NdL. apply in_or_app. right. apply (in_map fst) in K. exact K.
    - intros lf w' Q ->. destruct HM as [->|(lf' & o & ->)]; [contradiction|]. destruct Q as [Q|[]]. injection Q as -> <-. rewrite map_app in NdL. cbn [app map fst] in NdL. apply NoDup_remove_2 in NdL. apply NdL. apply in_or_app. right. right. apply (in_map fst) in K. exact K. }
  destruct (open_frame E HE W d c fs (VObj u ufs) A M bf k B b e v1 b1 Hv HL Fr (user_grows W E u U ufs d Fu HU Ap) (computes_careful W E HW) Hb He)
    as [(e' & -> & W1 & X1 & R)|[(e' & b0 & x' & -> & AB & BC & ->)|(body & x' & b2 & ((b0 & b0' & AB & BC & A0) & A2 & W2) & Cm & EN)]].
  - right. split; [exact W1|]. split; [exact X1|]. destruct R as [R|[R|(R & g & w & K1 & K2)]]; [left; exact R|right; left; exact R|right; right; split; [exact R|]; right; exists g, w; split; [exact K1|lia]].
  - destruct d as [|d].
    + cbn in BC. injection BC as <- <- <-. destruct AB as [AB Wb]. right. split; [exact Wb|]. split; [eauto|]. right. right. split; [reflexivity|]. left. lia.
    + rewrite (user_call W E u U ufs d b0 Fu HU) in BC. destruct (u_enc U ufs b0) as [[e2 ufs'] b0'] eqn:EU. injection BC as -> <- ->. left. exists b0, ufs'. auto.
  - destruct d as [|d]; [discriminate BC|]. rewrite (user_call W E u U ufs d b0 Fu HU) in BC. destruct (u_enc U ufs b0) as [[e2 ufs'] b0''] eqn:EU. injection BC as -> <- ->.
    set (frame := bytes_of Y (VObj c (set bf (VObj u ufs) fs)) A ++ length_bytes M (List.length body) ++ body) in *. set (fs2 := with_length M (List.length body) (set bf (VObj u ufs') fs)) in *.
    (* the fields when the checksum is due *)
    assert (G2 : get bf fs2 = VObj u ufs' /\ (forall lf n o, In (lf, WLen n o) M -> get lf fs2 = VInt (Z.of_nat (List.length body))) /\ (forall g, g <> bf -> (forall n o, ~ In (g, WLen n o) M) -> get g fs2 = get g (set bf (VObj u ufs) fs))).
    { unfold fs2. destruct HM as [->|(lf & o & ->)]; cbn [with_length].
      - split; [apply set_get_same; exact Ib|]. split; [intros lf n o []|]. intros g Ng _. rewrite !set_get_other by exact Ng. reflexivity.
      - destruct (Il lf (WLen 4 o) (or_introl eq_refl)) as [L1 L2]. split; [rewrite set_get_other by congruence; apply set_get_same; exact Ib|]. split.
        + intros lf' n o' [[= <- <- <-]|[]]. apply set_get_same. rewrite set_fst. exact L1.
        + intros g Ng Nl. rewrite !set_get_other; auto. intros ->. apply (Nl 4%nat o). left. reflexivity. }
    destruct G2 as (G2a & G2b & G2c).
    assert (RB : readable b2 = readable b ++ frame) by (apply appended_readable; [apply buf_wf_iff; exact Hb|exact A2]).
    assert (DONE : forall sv, v1 = VObj c sv -> (forall sf n o alg, In (sf, WSum n o alg) B -> get sf sv = match checksum E alg with Some s => VInt (wrap 32 (s (readable b ++ frame))) | None => get sf (set bf (VObj u ufs) fs) end) ->
              (forall g, (forall n o alg, ~ In (g, WSum n o alg) B) -> get g sv = get g fs2) -> written b2 (bytes_of Y v1 B) e b1 ->
              match e with
              | None => exists body ufs' b0 b0', at_body Y (VObj c (set bf (VObj u ufs) fs)) A M b b0 /\ u_enc U ufs b0 = (None, ufs', b0') /\ appended b0 body b0'
                 /\ (let frame := bytes_of Y (VObj c (set bf (VObj u ufs) fs)) A ++ length_bytes M (List.length body) ++ body in
                     appended b (frame ++ bytes_of Y v1 B) b1 /\ buf_wf b1 = true /\ value bf v1 = VObj u ufs'
                     /\ (forall lf n o, In (lf, WLen n o) M -> value lf v1 = VInt (Z.of_nat (List.length body)))
                     /\ (forall sf n o alg, In (sf, WSum n o alg) B -> value sf v1 = match checksum E alg with Some s => VInt (wrap 32 (s (readable b ++ frame))) | None => value sf (VObj c (set bf (VObj u ufs) fs)) end)
                     /\ (forall g, g <> bf -> (forall n o, ~ In (g, WLen n o) M) -> (forall n o alg, ~ In (g, WSum n o alg) B) -> value g v1 = value g (VObj c (set bf (VObj u ufs) fs))))
              | Some e => (exists b0 ufs', at_body Y (VObj c (set bf (VObj u ufs) fs)) A M b b0 /\ u_enc U ufs b0 = (Some e, ufs', b1) /\ v1 = VObj c (set bf (VObj u ufs') fs))
                 \/ (buf_wf b1 = true /\ (exists bs, appended b bs b1)
                     /\ (e = NPE /\ (exists g w, In (g, w) A /\ complete Y (value g (VObj c (set bf (VObj u ufs) fs))) w = false) \/ e = IOOBE \/ e = SOE /\ ((S (S d) <= 1)%nat \/ exists g w, In (g, w) A /\ (S (S d) <= nesting (value g (VObj c (set bf (VObj u ufs) fs))))%nat)))
              end).
    { intros sv -> Hsum Hoth [Wb1 Hw]. destruct e as [e|].
      - right. split; [exact Wb1|]. destruct Hw as [-> (cs & Hw)]. split; [exists (frame ++ cs); eapply appended_trans; eauto|]. right. left. reflexivity.
      - exists body, ufs', b0, b0'. split; [exact AB|]. split; [exact EU|]. split; [exact A0|]. cbv zeta. fold frame. split; [eapply appended_trans; eauto|]. split; [exact Wb1|]. cbn [value]. split; [|split; [|split; [exact Hsum|]]].
        + rewrite Hoth; [exact G2a|]. intros n o alg K. destruct (Is _ _ K) as (_ & K1 & _). congruence.
        + intros lf n o K. rewrite Hoth; [exact (G2b lf n o K)|]. intros n' o' alg K2. destruct (Is _ _ K2) as (_ & _ & K3). exact (K3 lf _ K eq_refl).
        + intros g N1 N2 N3. rewrite Hoth by exact N3. apply G2c; assumption. }
    destruct HB as [->|[(sf & o & ->)|(sf & o & alg & ->)]]; cbn [ending] in EN.
    + destruct EN as (-> & -> & ->). apply (DONE fs2 eq_refl); auto; [intros sf n o alg []|]. split; [exact W2|]. apply appended_nil.
    + destruct EN as [-> EN]. apply (DONE fs2 eq_refl); auto. intros sf' n o' alg [K|[]]. discriminate K.
    + pose proof (HW alg) as C. unfold computes in C. destruct (Is sf _ (or_introl eq_refl)) as (S1 & S2 & S3). destruct (services W alg) as [s|]; destruct (checksum E alg) as [cf|] eqn:EC; try contradiction.
      * rewrite C in EN. destruct EN as [-> EN]. rewrite RB in *.
        assert (S1' : In sf (map fst fs2)) by (unfold fs2; destruct HM as [->|(lf & o' & ->)]; cbn [with_length]; rewrite ?set_fst; exact S1).
        apply (DONE _ eq_refl).
        -- intros sf' n o' alg' [[= <- _ _ <-]|[]]. rewrite EC. apply set_get_same. exact S1'.
        -- intros g Ng. apply set_get_other. intros ->. apply (Ng 4%nat o alg). left. reflexivity.
        -- unfold bytes_of. cbn [flat_map fst snd value]. rewrite (set_get_same _ _ _ S1'). cbn [ser]. rewrite app_nil_r. rewrite (number_wrap o 4) by lia. exact EN.
      * destruct EN as [-> EN]. apply (DONE fs2 eq_refl); auto. intros sf' n o' alg' [[= <- _ _ <-]|[]]. rewrite EC. apply G2c; [exact S2|]. intros n' o'' K. exact (S3 _ _ K eq_refl).
Qed.

(* ---- decode ---- *)
Lemma absorb_get g x w : forall afs A oa, NoDup (map fst afs) -> map fst oa = map fst afs -> map fst afs = map fst A -> In ((g, x), (g, w)) (combine afs A) -> In (g, absorb Y (get g oa) x w) (absorb_fields Y afs A oa).
Proof.
  induction afs as [|[f y] afs IH]; intros [|[h wx] A] [|[i o] oa] D N1 N2 K; try discriminate N1; try discriminate N2; try contradiction. cbn [map fst] in *. injection N1 as -> N1. injection N2 as -> N2. cbn [combine absorb_fields get] in *.
  inversion D as [|a b D1 D2]. subst a b. destruct K as [K|K]; [inversion K; subst; rewrite String.eqb_refl; left; reflexivity|]. right.
  destruct (String.eqb_spec g h) as [->|N]; [exfalso; apply D1; apply in_combine_l in K; apply (in_map fst) in K; exact K|]. apply IH; auto.
Qed.
Lemma in_both g w : forall (afs : list (string * val)) (A : layout), map fst afs = map fst A -> In (g, w) A -> exists x, In ((g, x), (g, w)) (combine afs A).
Proof.
  induction afs as [|[f y] afs IH]; intros [|[h wx] A] N K; try discriminate N; try contradiction. cbn [map fst] in N. injection N as -> N. cbn [combine]. destruct K as [[= -> ->]|K]; [exists y; left; reflexivity|]. destruct (IH A N K) as (x & Q). exists x. right. exact Q.
Qed.
Lemma all_both (P : string * val -> string * wire -> bool) : forall afs A, map fst afs = map fst A -> (forall fv fw, In (fv, fw) (combine afs A) -> P fv fw = true) -> all2 P afs A = true.
Proof. induction afs as [|a afs IH]; intros [|h A] N H; try discriminate N; [reflexivity|]. cbn [all2]. cbn [map] in N. injection N as _ N. rewrite (H a h (or_introl eq_refl)). cbn [andb]. apply IH; [exact N|]. intros fv fw K. apply H. right. exact K. Qed.
Lemma combine_names : forall (afs : list (string * val)) (A : layout) fv fw, map fst afs = map fst A -> In (fv, fw) (combine afs A) -> fst fv = fst fw.
Proof. induction afs as [|a afs IH]; intros [|h A] fv fw N K; try discriminate N; try contradiction. cbn [map] in N. injection N as N1 N. destruct K as [[= -> ->]|K]; [exact N1|eauto]. Qed.
Lemma tag_in k w : forall afs A, NoDup (map fst afs) -> map fst afs = map fst A -> In (k, w) A -> tag k afs A = tag_of (get k afs) w.
Proof.
  induction afs as [|[f y] afs IH]; intros [|[h wx] A] D N K; try discriminate N; try contradiction. cbn [map fst] in *. injection N as -> N. inversion D as [|a b D1 D2]. subst a b. cbn [tag get]. destruct K as [[= -> ->]|K]; [rewrite String.eqb_refl; reflexivity|].
  destruct (String.eqb_spec k h) as [->|Nk]; [exfalso; apply D1; rewrite N; apply (in_map fst) in K; exact K|auto].
Qed.
Lemma nest_in n : forall afs, (forall fv, In fv afs -> (nesting (snd fv) <= n)%nat) -> (nest_fields afs <= n)%nat.
Proof. unfold nest_fields. induction afs as [|a afs IH]; intros H; cbn [max_of]; [lia|]. pose proof (H a (or_introl eq_refl)). assert (max_of (fun fv : string * val => nesting (snd fv)) afs <= n)%nat by (apply IH; intros; apply H; right; assumption). lia. Qed.

(* decode of bytes that begin with a header whose tag is registered with a user's class: a new object of that class is made, its decode is called on the
   bytes after the header and the length field, and becomes the body; what it leaves unread is where the checksum is looked for *)
Theorem C70_user_body_decoded : forall W E d c fs os y A M bf k w B u U t r lb rest e v1 r1, classes E = lib_classes -> object_of E c (VObj c fs) = true -> object_of E c (VObj c os) = true ->
  find c Y = Some (A ++ M ++ (bf, WBody k) :: B) -> framing A M B = true -> (forall g w', In (g, w') A -> parsable Y (factory E) (get g fs) w' = true /\ (nesting (get g fs) <= S d)%nat) ->
  In (k, w) A -> tag_of (get k fs) w = Some t -> factory E c t = Some u -> find_class E u = None -> users W u = Some U ->
  buf_wf r = true -> List.length lb = List.length (Open.blank M) -> readable r = bytes_of Y (VObj c fs) A ++ lb ++ rest ->
  decode_open W E (S (S d)) (VObj c (set bf y os)) r = (e, v1, r1) ->
  exists r0 e2 ufs r2, advanced r (List.length (bytes_of Y (VObj c fs) A) + List.length lb) r0 /\ readable r0 = rest /\ u_dec U (u_new U) r0 = (e2, ufs, r2)
    /\ value bf v1 = VObj u ufs
    /\ (forall g w', In (g, w') A -> value g v1 = absorb Y (get g os) (get g fs) w')
    /\ (forall lf n o, In (lf, WLen n o) M -> value lf v1 = VInt (get_int o lb))
    /\ match e2, B with
       | Some e2, _ => e = Some e2 /\ r1 = r2 /\ forall sf w', In (sf, w') B -> value sf v1 = get sf os
       | None, [] => e = None /\ r1 = r2
       | None, (sf, WSum n o _) :: _ | None, (sf, WInt n o) :: _ =>
           match read_bytes n r2 with
           | (inr bs, r3) => e = None /\ r1 = r3 /\ value sf v1 = VInt (get_int o bs)
           | (inl e3, r3) => e = Some e3 /\ r1 = r3 /\ value sf v1 = get sf os
           end
       | None, _ => False
       end.
Proof.
  intros W E d c fs os y A M bf k w B u U t r lb rest e v1 r1 HE Hv Ho HL Fr HA Hk Ht Hf Fu HU Hr Hlb Er He.
  destruct (framing_parts A M B Fr) as [HM HB].
  destruct (object_shape lib_classes E HE c _ Hv) as (fs' & [= <-] & Tv). destruct (object_shape lib_classes E HE c _ Ho) as (os' & [= <-] & To).
  pose proof (typed_obj lib_classes Y c fs _ _ library_conforms HL Tv) as Kv. pose proof (typed_obj lib_classes Y c os _ _ library_conforms HL To) as Ko.
  destruct (fields_ok_split lib_classes _ _ _ Kv) as (afs & rv & -> & Ka & _).
  destruct (fields_ok_split lib_classes _ _ _ Ko) as (oa & ro & -> & Koa & Kr). destruct (fields_ok_split lib_classes _ _ _ Kr) as (om & ro2 & -> & Kom & Kr2).
  destruct ro2 as [|[g ov] obs]; [discriminate|]. apply fields_ok_cons in Kr2 as (-> & _ & Kob).
  pose proof (conforms_ok lib_classes Y c _ library_conforms HL) as Hok. pose proof (nodup_names _ [] (NoDup_nil _) Hok) as ND. cbn [app] in ND.
  pose proof (fields_ok_names _ _ _ Ka) as Na. pose proof (fields_ok_names _ _ _ Koa) as Noa. pose proof (fields_ok_names _ _ _ Kom) as Nom. pose proof (fields_ok_names _ _ _ Kob) as Nob.
  assert (NDa : NoDup (map fst afs)) by (rewrite Na; rewrite map_app in ND; exact (nodup_left _ _ ND)).
  (* names *)
  assert (Nbf : ~ In bf (map fst oa) /\ ~ In bf (map fst om) /\ ~ In bf (map fst obs)).
  { rewrite Noa, Nom, Nob. rewrite app_assoc, map_app in ND. cbn [map fst] in ND. apply NoDup_remove_2 in ND. rewrite map_app in ND. repeat split; intros K; apply ND; apply in_or_app; [left; apply in_or_app; auto|left; apply in_or_app; auto|auto]. }
  assert (SB : set bf y (oa ++ om ++ (bf, ov) :: obs) = oa ++ om ++ (bf, y) :: obs).
  { destruct Nbf as (N1 & N2 & _). clear - N1 N2. induction oa as [|[h q] l IH]; cbn [app set].
    - induction om as [|[h q] l IH]; cbn [app set]; [rewrite String.eqb_refl; reflexivity|]. cbn [map fst In] in N2. destruct (String.eqb_spec bf h) as [->|]; [exfalso; apply N2; left; reflexivity|]. f_equal. apply IH. tauto.
    - cbn [map fst In] in N1. destruct (String.eqb_spec bf h) as [->|]; [exfalso; apply N1; left; reflexivity|]. f_equal. apply IH. tauto. }
  rewrite SB in He.
  assert (GA : forall g x w', In ((g, x), (g, w')) (combine afs A) -> get g (afs ++ rv) = x).
  { intros g x w' K. apply in_combine_l in K. rewrite hd_get by (apply (in_map fst) in K; exact K). apply get_in; auto. }
  assert (BY : bytes_of Y (VObj c (afs ++ rv)) A = ser_fields Y afs A) by (symmetry; apply (concat_bytes c rv afs A []); auto).
  rewrite BY in *.
  assert (Hp : all2 (fun fv fw => parsable Y (factory E) (snd fv) (snd fw)) afs A = true).
  { apply all_both; [exact Na|]. intros [g x] [g' w'] K. pose proof (combine_names _ _ _ _ Na K) as Q. cbn in Q. subst g'. cbn [snd]. rewrite <- (GA _ _ _ K). apply HA. apply in_combine_r in K. exact K. }
  assert (Hn : (nest_fields afs <= S d)%nat).
  { apply nest_in. intros [g x] K. assert (K2 : In g (map fst A)) by (rewrite <- Na; apply (in_map fst) in K; exact K). apply in_map_iff in K2 as ([g' w'] & Q & K2). cbn in Q. subst g'. cbn [snd].
    rewrite <- (get_in g x afs NDa K). rewrite <- (hd_get g afs rv) by (apply (in_map fst) in K; exact K). apply (HA g w' K2). }
  assert (Ht' : tag k afs A = Some t).
  { rewrite (tag_in k w afs A NDa Na Hk). rewrite <- Ht. f_equal. symmetry. apply hd_get. rewrite Na. apply (in_map fst) in Hk. exact Hk. }
  apply buf_wf_iff in Hr.
  pose proof (open_decode E HE W d c u U A M bf k B afs oa om y obs r lb rest t HL Fr Ka Koa Kom Kob Hp Hn Ht' Hf Fu HU Hr Hlb Er) as P. cbv zeta in P.
  set (hdr := absorb_fields Y afs A oa) in *. set (lenf := match M with (lf, WLen _ o) :: _ => [(lf, VInt (get_int o lb))] | _ => [] end) in *.
  rewrite He in P. set (r0 := adv r (List.length (ser_fields Y afs A) + List.length lb)) in *.
  assert (R0 : readable r0 = rest).
  { unfold r0. rewrite app_assoc in Er. rewrite <- app_length. exact (proj2 (adv_ok r _ rest Hr Er)). }
  destruct (u_dec U (u_new U) r0) as [[e2 ufs] r2] eqn:EU. exists r0, e2, ufs, r2. split; [reflexivity|]. split; [exact R0|]. split; [exact EU|].
  assert (NH : map fst hdr = map fst A).
  { unfold hdr. rewrite absorb_fields_names; [exact Na| |]; [rewrite <- (map_length fst afs), Na, map_length; reflexivity|rewrite <- (map_length fst oa), Noa, map_length; reflexivity]. }
  assert (NL : map fst lenf = map fst M) by (unfold lenf; destruct HM as [->|(lf & o & ->)]; reflexivity).
  assert (ST : forall xb bs, map fst bs = map fst B -> let l := (hdr ++ lenf) ++ (bf, xb) :: bs in
     get bf l = xb /\ (forall g w', In (g, w') A -> get g l = absorb Y (get g (oa ++ om ++ (bf, ov) :: obs)) (get g (afs ++ rv)) w') /\ (forall lf n o, In (lf, WLen n o) M -> get lf l = VInt (get_int o lb)) /\ (forall sf x, In (sf, x) bs -> get sf l = x)).
  { intros xb bs Nb l. assert (NDl : NoDup (map fst l)) by (unfold l; rewrite <- app_assoc, !map_app, NH, NL; cbn [map fst]; rewrite Nb; rewrite !map_app in ND; exact ND).
    split; [|split; [|split]].
    - apply get_in; [exact NDl|]. unfold l. apply in_or_app. right. left. reflexivity.
    - intros g w' K. apply get_in; [exact NDl|]. unfold l. apply in_or_app. left. apply in_or_app. left.
      destruct (in_both g w' afs A Na K) as (x & Kx). rewrite (GA _ _ _ Kx). rewrite hd_get by (rewrite Noa; apply (in_map fst) in K; exact K). apply absorb_get; auto. congruence.
    - intros lf n o K. apply get_in; [exact NDl|]. unfold l. apply in_or_app. left. apply in_or_app. right. unfold lenf. destruct HM as [->|(lf' & o' & ->)]; [contradiction|]. destruct K as [[= <- <- <-]|[]]. left. reflexivity.
    - intros sf x K. apply get_in; [exact NDl|]. unfold l. apply in_or_app. right. right. exact K. }
  assert (OB : forall sf x, In (sf, x) obs -> get sf (oa ++ om ++ (bf, ov) :: obs) = x).
  { intros sf x K. apply get_in; [|apply in_or_app; right; apply in_or_app; right; right; exact K]. rewrite !map_app. cbn [map fst]. rewrite Noa, Nom, Nob. rewrite !map_app in ND. exact ND. }
  assert (SO : forall sf w', In (sf, w') B -> exists x, In (sf, x) obs).
  { intros sf w' K. apply (in_map fst) in K. cbn in K. rewrite <- Nob in K. apply in_map_iff in K as ([h x] & Q & K). cbn in Q. subst h. eauto. }
  destruct e2 as [e2|].
  - injection P as -> -> ->. cbn [value]. destruct (ST (VObj u ufs) obs Nob) as (S1 & S2 & S3 & S4). split; [exact S1|]. split; [exact S2|]. split; [exact S3|]. split; [reflexivity|]. split; [reflexivity|].
    intros sf w' K. destruct (SO sf w' K) as (x & Kx). rewrite (S4 sf x Kx), (OB sf x Kx). reflexivity.
  - destruct HB as [->|[(sf & o & ->)|(sf & o & alg & ->)]].
    + injection P as -> -> ->. cbn [value]. destruct (ST (VObj u ufs) obs Nob) as (S1 & S2 & S3 & S4). auto.
    + destruct (read_bytes 4 r2) as [[e3|bs] r3]; injection P as -> -> ->; cbn [value].
      * destruct (ST (VObj u ufs) obs Nob) as (S1 & S2 & S3 & S4). split; [exact S1|]. split; [exact S2|]. split; [exact S3|]. split; [reflexivity|]. split; [reflexivity|]. destruct (SO sf _ (or_introl eq_refl)) as (x & Kx). rewrite (S4 sf x Kx), (OB sf x Kx). reflexivity.
      * destruct (ST (VObj u ufs) [(sf, VInt (get_int o bs))] eq_refl) as (S1 & S2 & S3 & S4). split; [exact S1|]. split; [exact S2|]. split; [exact S3|]. split; [reflexivity|]. split; [reflexivity|]. apply S4. left. reflexivity.
    + destruct (read_bytes 4 r2) as [[e3|bs] r3]; injection P as -> -> ->; cbn [value].
      * destruct (ST (VObj u ufs) obs Nob) as (S1 & S2 & S3 & S4). split; [exact S1|]. split; [exact S2|]. split; [exact S3|]. split; [reflexivity|]. split; [reflexivity|]. destruct (SO sf _ (or_introl eq_refl)) as (x & Kx). rewrite (S4 sf x Kx), (OB sf x Kx). reflexivity.
      * destruct (ST (VObj u ufs) [(sf, VInt (get_int o bs))] eq_refl) as (S1 & S2 & S3 & S4). split; [exact S1|]. split; [exact S2|]. split; [exact S3|]. split; [reflexivity|]. split; [reflexivity|]. apply S4. left. reflexivity.
Qed.

(* a message with a user's body, decoded from the bytes encode wrote: provided the user's class reads back what it wrote and the header can be read back,
   decode returns having read exactly those bytes, and body, length and checksum are as encode left them *)
Theorem C70_user_round_trip : forall W E d d' c fs os y A M bf k w B u U ufs t v b v1 b1 bs r rest, classes E = lib_classes -> object_of E c (VObj c fs) = true -> object_of E c (VObj c os) = true ->
  find c Y = Some (A ++ M ++ (bf, WBody k) :: B) -> framing A M B = true -> (forall g w', In (g, w') A -> parsable Y (factory E) (get g fs) w' = true /\ (nesting (get g fs) <= S d')%nat) ->
  In (k, w) A -> tag_of (get k fs) w = Some t -> factory E c t = Some u -> find_class E u = None -> users W u = Some U -> appends (u_enc U) -> (forall alg, computes W E alg) ->
  (forall b1 ufs' b2 body r rest, buf_wf b1 = true -> u_enc U ufs b1 = (None, ufs', b2) -> appended b1 body b2 -> buf_wf r = true -> readable r = body ++ rest -> exists r', u_dec U (u_new U) r = (None, ufs', r') /\ advanced r (List.length body) r') ->
  call_set E (VObj c fs) (setter bf) (VObj u ufs) = Some v -> buf_wf b = true -> encode_open W E d v b = (None, v1, b1) -> appended b bs b1 ->
  buf_wf r = true -> readable r = bs ++ rest ->
  exists v2 r1, decode_open W E (S (S d')) (VObj c (set bf y os)) r = (None, v2, r1) /\ advanced r (List.length bs) r1
    /\ (forall g w', In (g, w') (M ++ (bf, WBody k) :: B) -> value g v2 = value g v1) /\ (forall g w', In (g, w') A -> value g v2 = absorb Y (get g os) (value g v1) w').
Proof.
  intros W E d d' c fs os y A M bf k w B u U ufs t v b v1 b1 bs r rest HE Hv Ho HL Fr HA Hk Ht Hf Fu HU Ap HW RT Hs Hb He Ab Hr Er.
  pose proof (C70_user_body W E d c fs A M bf k B u U ufs v b None v1 b1 HE Hv HL Fr Fu HU Ap HW Hs Hb He) as (body & ufs' & b0 & b0' & AB & EU & A0 & P). cbv zeta in P. destruct P as (A1 & W1 & V1 & V2 & V3 & V4).
  destruct (set_body E c fs A M bf k B _ v HE Hv HL Hs) as (-> & Nf & Nd). destruct (framing_parts A M B Fr) as [HM HB].
  pose proof (proj1 (buf_wf_iff _) W1) as W1'.
  assert (EB : bs = (bytes_of Y (VObj c (set bf (VObj u ufs) fs)) A ++ length_bytes M (List.length body) ++ body) ++ bytes_of Y v1 B).
  { pose proof (app_content _ _ _ Ab) as Q. rewrite (app_content _ _ _ A1) in Q. apply app_inv_head in Q. symmetry. exact Q. }
  assert (NdL : NoDup (map fst (A ++ M ++ (bf, WBody k) :: B))) by (rewrite <- Nf; exact Nd).
  assert (NA : forall g w', In (g, w') A -> g <> bf /\ (forall n o, ~ In (g, WLen n o) M) /\ (forall n o alg, ~ In (g, WSum n o alg) B)).
  { intros g w' K. rewrite map_app in NdL.
    assert (Q : forall h w'', In (h, w'') (M ++ (bf, WBody k) :: B) -> g <> h).
    { intros h w'' K2 <-. clear - NdL K K2. induction A as [|[i q] A IH]; [contradiction|]. cbn [map fst app] in NdL. inversion NdL as [|a b N1 N2]. subst a b. destruct K as [[= -> ->]|K]; [apply N1; apply in_or_app; right; apply (in_map fst) in K2; exact K2|auto]. }
    split; [apply (Q bf (WBody k)); apply in_or_app; right; left; reflexivity|]. split; [intros n o K2|intros n o alg K2].
    - apply (Q g (WLen n o)); [apply in_or_app; left; exact K2|reflexivity].
    - apply (Q g (WSum n o alg)); [apply in_or_app; right; right; exact K2|reflexivity]. }
  assert (BA : bytes_of Y (VObj c (set bf (VObj u ufs) fs)) A = bytes_of Y (VObj c fs) A).
  { unfold bytes_of. cbn [value]. clear - NA. assert (G : forall g w', In (g, w') A -> g <> bf) by (intros g w' K; apply (NA g w' K)). clear NA. induction A as [|[g w'] A IH]; [reflexivity|]. cbn [flat_map fst snd]. rewrite (set_get_other bf g) by exact (G g w' (or_introl eq_refl)). f_equal. apply IH. intros g0 w0 K. exact (G g0 w0 (or_intror K)). }
  rewrite BA in *. set (hdr := bytes_of Y (VObj c fs) A) in *. set (lb := length_bytes M (List.length body)) in *. set (cs := bytes_of Y v1 B) in *.
  assert (Hlb : List.length lb = List.length (Open.blank M)) by (unfold lb, length_bytes, Open.blank; destruct HM as [->|(lf & o & ->)]; [reflexivity|]; rewrite number_length, repeat_length; reflexivity).
  assert (Er' : readable r = hdr ++ lb ++ body ++ cs ++ rest) by (rewrite Er, EB, <- !app_assoc; reflexivity).
  destruct (decode_open W E (S (S d')) (VObj c (set bf y os)) r) as [[e v2] r1] eqn:ED.
  destruct (C70_user_body_decoded W E d' c fs os y A M bf k w B u U t r lb (body ++ cs ++ rest) e v2 r1 HE Hv Ho HL Fr HA Hk Ht Hf Fu HU Hr Hlb Er' ED) as (r0 & e2 & ufs2 & r2 & R0 & Q0 & UD & X1 & X2 & X3 & X4).
  assert (W0 : buf_wf r0 = true).
  { unfold advanced in R0. fold hdr in R0. rewrite <- app_length in R0. change (r0 = adv r (List.length (hdr ++ lb))) in R0. subst r0. apply buf_wf_iff. apply (adv_ok r (hdr ++ lb) (body ++ cs ++ rest)); [apply buf_wf_iff; exact Hr|rewrite <- app_assoc; exact Er']. }
  destruct (RT b0 ufs' b0' body r0 (cs ++ rest) (proj2 AB) EU A0 W0 Q0) as (r' & UD' & Adv). rewrite UD in UD'. injection UD' as -> -> ->.
  assert (R2 : wf r' /\ readable r' = cs ++ rest).
  { unfold advanced in Adv. change (r' = adv r0 (List.length body)) in Adv. subst r'. apply adv_ok; [apply buf_wf_iff; exact W0|exact Q0]. }
  destruct R2 as [W2 Q2].
  assert (LB : forall lf n o, In (lf, WLen n o) M -> value lf v2 = value lf v1).
  { intros lf n o K. rewrite (X3 lf n o K), (V2 lf n o K). f_equal. unfold lb, length_bytes. destruct HM as [->|(lf' & o' & ->)]; [contradiction|]. destruct K as [[= <- <- <-]|[]].
    apply get_int_number_id; [lia|]. pose proof (appended_small b _ b1 W1' A1) as Sm. rewrite !app_length in Sm. apply in_signed_spec. change (8 * Z.of_nat 4 - 1) with 31. lia. }
  assert (XA : forall g w', In (g, w') A -> value g v2 = absorb Y (get g os) (value g v1) w').
  { intros g w' K. rewrite (X2 g w' K). destruct (NA g w' K) as (N1 & N2 & N3). rewrite (V4 g N1 N2 N3). cbn [value]. rewrite set_get_other by exact N1. reflexivity. }
  (* the field of the checksum holds an int *)
  assert (IB : forall sf w', In (sf, w') B -> exists z, in_signed 32 z = true /\ value sf v1 = VInt z).
  { intros sf w' K. destruct (object_shape lib_classes E HE c _ Hv) as (fs' & [= <-] & Tv). pose proof (typed_obj lib_classes Y c fs _ _ library_conforms HL Tv) as Kv.
    assert (Fi : exists z, in_signed 32 z = true /\ get sf fs = VInt z).
    { destruct (fields_ok_split lib_classes _ _ _ Kv) as (afs & rv & E1 & _ & Kr). destruct (fields_ok_split lib_classes _ _ _ Kr) as (om & ro2 & -> & _ & Kr2). destruct ro2 as [|[g ov] obs]; [discriminate|]. apply fields_ok_cons in Kr2 as (-> & _ & Kob).
      assert (I0 : exists x, In (sf, x) fs /\ typed lib_classes x (wire_type w') = true).
      { subst fs. destruct HB as [->|[(sf' & o & ->)|(sf' & o & alg & ->)]]; [contradiction| |]; (destruct K as [[= <- <-]|[]]); (destruct obs as [|[g x] obs]; [discriminate|]); apply fields_ok_cons in Kob as (-> & Tx & _); exists x; (split; [|exact Tx]); apply in_or_app; right; apply in_or_app; right; right; left; reflexivity. }
      destruct I0 as (x & I1 & Tx). rewrite (get_in sf x fs Nd I1). destruct HB as [->|[(sf' & o & ->)|(sf' & o & alg & ->)]]; [contradiction| |]; (destruct K as [[= <- <-]|[]]); destruct x; try discriminate Tx; exists z; (split; [exact Tx|reflexivity]). }
    assert (Ns : sf <> bf /\ forall n o, ~ In (sf, WLen n o) M).
    { split.
      - intros ->. rewrite app_assoc, map_app in NdL. cbn [map fst] in NdL. apply NoDup_remove_2 in NdL. apply NdL. apply in_or_app. right. apply (in_map fst) in K. exact K.
      - intros n o Q. destruct HM as [->|(lf' & o' & ->)]; [contradiction|]. destruct Q as [[= -> <- <-]|[]]. rewrite map_app in NdL. cbn [app map fst] in NdL. apply NoDup_remove_2 in NdL. apply NdL. apply in_or_app. right. right. apply (in_map fst) in K. exact K. }
    destruct Ns as [N1 N2]. destruct HB as [->|[(sf' & o & ->)|(sf' & o & alg & ->)]]; [contradiction| |]; (destruct K as [[= <- <-]|[]]).
    - rewrite (V4 sf' N1 N2); [cbn [value]; rewrite set_get_other by exact N1; exact Fi|]. intros n' o' alg' [Q|[]]. discriminate Q.
    - rewrite (V3 sf' 4%nat o alg (or_introl eq_refl)). destruct (checksum E alg); [eexists; split; [|reflexivity]; apply wrap_in_signed; lia|]. cbn [value]. rewrite set_get_other by exact N1. exact Fi. }
  assert (FIN : forall r3, r3 = adv r' (List.length cs) -> advanced r (List.length bs) r3).
  { intros r3 ->. unfold advanced in *. fold hdr in R0. rewrite Adv, R0, EB, !app_length. unfold adv, set_ridx. cbn. f_equal. lia. }
  destruct B as [|[sf wb] B'].
  - destruct X4 as (-> & ->). exists v2, r'. split; [reflexivity|]. split; [apply FIN; unfold cs; cbn; symmetry; apply adv_0|]. split; [|exact XA].
    intros g w' K. apply in_app_or in K as [K|[[= <- <-]|[]]]; [destruct HM as [->|(lf & o & ->)]; [contradiction|]; destruct K as [[= <- <-]|[]]; apply (LB lf 4%nat o); left; reflexivity|]. rewrite X1, V1. reflexivity.
  - destruct (IB sf wb (or_introl eq_refl)) as (z & Sz & Vz).
    assert (HB' : exists o, (wb = WInt 4 o \/ exists alg, wb = WSum 4 o alg) /\ B' = [] /\ cs = number o 4 z).
    { destruct HB as [HB|[(sf' & o & HB)|(sf' & o & alg & HB)]]; [discriminate HB| |]; injection HB as -> -> ->; exists o; (split; [eauto|]); (split; [reflexivity|]); unfold cs, bytes_of; cbn [flat_map fst snd]; rewrite Vz; cbn [ser]; apply app_nil_r. }
    destruct HB' as (o & Hw & -> & Ec).
    assert (RD : read_bytes 4 r' = (inr cs, adv r' (List.length cs))).
    { pose proof (read_bytes_ok r' cs rest W2 Q2) as Q. rewrite Ec in Q |- *. rewrite number_length in Q |- *. exact Q. }
    assert (X5 : e = None /\ r1 = adv r' (List.length cs) /\ value sf v2 = VInt (get_int o cs)) by (destruct Hw as [->|(alg & ->)]; rewrite RD in X4; exact X4).
    destruct X5 as (-> & -> & X5). eexists v2, _. split; [reflexivity|]. split; [apply FIN; reflexivity|]. split; [|exact XA].
    intros g w' K. apply in_app_or in K as [K|[[= <- <-]|[[= <- <-]|[]]]].
    + destruct HM as [->|(lf & o' & ->)]; [contradiction|]; destruct K as [[= <- <-]|[]]; apply (LB lf 4%nat o'); left; reflexivity.
    + rewrite X1, V1. reflexivity.
    + rewrite X5, Vz, Ec. f_equal. apply get_int_number_id; [lia|exact Sz].
Qed.

(* ---- C71 ---- *)
(* a body: null, a library object whose classes call no service themselves, or an object of a user's class that appends what it writes *)
Definition good_body (W : world) (E : env) (x : val) : Prop :=
  x = VNull \/ (exists c, object_of E c x = true /\ made_of (sumless E) x = true)
  \/ (exists u U ufs, x = VObj u ufs /\ find_class E u = None /\ users W u = Some U /\ appends (u_enc U)).
Lemma sumless_known E c : sumless E c = true -> of_library E c = true.
Proof. unfold sumless, of_library. destruct (find_class E c); auto. Qed.
Lemma good_grows W E d x : classes E = lib_classes -> good_body W E x -> body_grows E W d x.
Proof.
  intros HE [->|[(c & Hx & Mx)|(u & U & ufs & -> & Fu & HU & Ap)]]; [| |exact (user_grows W E u U ufs d Fu HU Ap)].
  - intros b x' b' Hb Hc. injection Hc as <- <-. split; [exact Hb|]. exists []. apply appended_nil.
  - intros b x' b' Hb Hc. destruct (object_shape lib_classes E HE c x Hx) as (fs & -> & Ht). unfold body_call in Hc.
    assert (HW : forall c0 cd alg f, sumless E c0 = true -> find_class E c0 = Some cd -> In (ESum alg f) (c_enc cd) -> computes W E alg).
    { intros c0 cd alg f Sl F K. unfold sumless in Sl. rewrite F in Sl. rewrite forallb_forall in Sl. discriminate (Sl _ K). }
    rewrite (proj1 (encode_closed W E (sumless E) (sumless_known E) HW d (VObj c fs) b Mx)) in Hc.
    destruct (encoded_facts lib_classes Y library_conforms E HE d c _ b x' b' Hx Hb Hc) as (_ & _ & _ & _ & A & W1 & _). split; [exact W1|eauto].
Qed.
(* almost all classes of the library call no service *)
Theorem C71_services_are_called_by : forall E c, classes E = lib_classes -> of_library E c = true -> sumless E c = true \/ In c ["sample.RootPacket"; "sse.SseBinary"; "szse.SzseBinary"]%string.
Proof.
  intros E c HE Hc. unfold of_library, sumless, find_class in *. rewrite HE in *.
  assert (K : forallb (fun ccd => forallb (fun s => match s with ESum _ _ => false | _ => true end) (c_enc (snd ccd)) || existsb (String.eqb (fst ccd)) ["sample.RootPacket"; "sse.SseBinary"; "szse.SzseBinary"]%string) lib_classes = true) by (vm_compute; reflexivity).
  destruct (assoc c lib_classes) as [cd|] eqn:F; [|discriminate]. assert (I : In (c, cd) lib_classes) by (clear - F; induction lib_classes as [|[h q] l IH]; [discriminate|]; cbn [assoc] in F; destruct (String.eqb_spec c h) as [->|]; [left; congruence|right; auto]).
  rewrite forallb_forall in K. specialize (K _ I). cbn [fst snd] in K. apply orb_true_iff in K as [K|K]; [left; exact K|right]. apply existsb_exists in K as (x & K1 & K2). apply String.eqb_eq in K2 as ->. exact K1.
Qed.
(* encode of a message whose checksum is computed by service s, whatever s does: s is called once, last, on the buffer with header, length and body written;
   if it throws, encode throws that and the buffer is as s left it; otherwise the low 32 bits of the result are stored and written where s left the buffer *)
Theorem C71_any_service : forall W E d c fs x A M bf k sf o alg s v b e v1 b1, classes E = lib_classes -> object_of E c (VObj c fs) = true ->
  find c Y = Some (A ++ M ++ [(bf, WBody k); (sf, WSum 4 o alg)]) -> framing A M [(sf, WSum 4 o alg)] = true -> good_body W E x -> (forall alg s, services W alg = Some s -> careful s) -> services W alg = Some s ->
  call_set E (VObj c fs) (setter bf) x = Some v -> buf_wf b = true -> encode_open W E d v b = (e, v1, b1) ->
  match e with
  | None => exists body x' b2 z b3 d', d = S d' /\ at_end W E d' Y v x A M b body x' b2 /\ s b2 = (inr z, b3) /\ appended b3 (number o 4 z) b1 /\ buf_wf b1 = true
      /\ value sf v1 = VInt (wrap 32 z) /\ value bf v1 = x' /\ (forall lf n o, In (lf, WLen n o) M -> value lf v1 = VInt (Z.of_nat (List.length body)))
      /\ (forall g w, In (g, w) A -> value g v1 = value g v)
  | Some e =>
      (exists body x' b2 d', d = S d' /\ at_end W E d' Y v x A M b body x' b2
         /\ (s b2 = (inl e, b1) /\ value sf v1 = value sf v \/ e = IOOBE /\ exists z b3 cs, s b2 = (inr z, b3) /\ appended b3 cs b1 /\ value sf v1 = VInt (wrap 32 z)))
      \/ (exists b0 x' d', d = S d' /\ at_body Y v A M b b0 /\ body_call W E d' x b0 = (Some e, x', b1) /\ value sf v1 = value sf v) \/ (exists bs, appended b bs b1) /\ (e = NPE \/ e = IOOBE \/ e = SOE)
  end.
Proof.
  intros W E d c fs x A M bf k sf o alg s v b e v1 b1 HE Hv HL Fr Gb HS Hsv Hs Hb He. pose proof Hs as Hs0. destruct (set_body E c fs A M bf k _ x v HE Hv HL Hs) as (-> & Nf & Nd).
  destruct (framing_parts A M _ Fr) as [HM _].
  assert (NdL : NoDup (map fst (A ++ M ++ [(bf, WBody k); (sf, WSum 4 o alg)]))) by (rewrite <- Nf; exact Nd).
  assert (Ib : In bf (map fst fs)) by (rewrite Nf, !map_app; apply in_or_app; right; apply in_or_app; right; left; reflexivity).
  assert (Isf : In sf (map fst fs)) by (rewrite Nf, !map_app; apply in_or_app; right; apply in_or_app; right; right; left; reflexivity).
  assert (Nsb : sf <> bf) by (intros ->; rewrite app_assoc, map_app in NdL; cbn [map fst] in NdL; apply NoDup_remove_2 in NdL; apply NdL; apply in_or_app; right; left; reflexivity).
  assert (NM : forall lf w, In (lf, w) M -> In lf (map fst fs) /\ lf <> bf /\ lf <> sf).
  { intros lf w K. split; [rewrite Nf, !map_app; apply in_or_app; right; apply in_or_app; left; apply (in_map fst) in K; exact K|]. split.
    - intros ->. rewrite app_assoc, map_app in NdL. cbn [map fst] in NdL. apply NoDup_remove_2 in NdL. apply NdL. apply in_or_app. left. rewrite map_app. apply in_or_app. right. apply (in_map fst) in K. exact K.
    - intros ->. replace (A ++ M ++ [(bf, WBody k); (sf, WSum 4 o alg)]) with ((A ++ M ++ [(bf, WBody k)]) ++ [(sf, WSum 4 o alg)]) in NdL by (rewrite <- !app_assoc; reflexivity). rewrite map_app in NdL. cbn [map fst] in NdL. apply NoDup_remove_2 in NdL. apply NdL. rewrite app_nil_r, !map_app. apply in_or_app. right. apply in_or_app. left. apply (in_map fst) in K. exact K. }
  assert (NA : forall g w, In (g, w) A -> g <> bf /\ g <> sf /\ forall lf w', In (lf, w') M -> g <> lf).
  { intros g w K. assert (Q : forall h w'', In (h, w'') (M ++ [(bf, WBody k); (sf, WSum 4 o alg)]) -> g <> h).
    { intros h w'' K2 <-. rewrite map_app in NdL. clear - NdL K K2. induction A as [|[i q] A IH]; [contradiction|]. cbn [map fst app] in NdL. inversion NdL as [|a b N1 N2]. subst a b. destruct K as [[= -> ->]|K]; [apply N1; apply in_or_app; right; apply (in_map fst) in K2; exact K2|auto]. }
    split; [apply (Q bf (WBody k)); apply in_or_app; right; left; reflexivity|]. split; [apply (Q sf (WSum 4 o alg)); apply in_or_app; right; right; left; reflexivity|]. intros lf w' K2. apply (Q lf w'). apply in_or_app. left. exact K2. }
  destruct d as [|d].
  { cbn [encode_open] in He. injection He as <- <- <-. right. right. split; [exists []; apply appended_nil|auto]. }
  destruct (open_frame E HE W d c fs x A M bf k _ b e v1 b1 Hv HL Fr (good_grows W E d x HE Gb) HS Hb He)
    as [(e' & -> & W1 & X1 & R)|[(e' & b0 & x' & -> & AB & BC & ->)|(body & x' & b2 & AE & Cm & EN)]].
  - (* before the body *) right. right. split; [exact X1|tauto].
  - right. left. exists b0, x', d. split; [reflexivity|]. split; [exact AB|]. split; [exact BC|]. cbn [value]. rewrite !set_get_other by exact Nsb. reflexivity.
  - set (fs2 := with_length M (List.length body) (set bf x' fs)) in *.
    assert (G2 : get bf fs2 = x' /\ (forall lf n o, In (lf, WLen n o) M -> get lf fs2 = VInt (Z.of_nat (List.length body))) /\ (forall g, g <> bf -> (forall w, ~ In (g, w) M) -> get g fs2 = get g fs) /\ In sf (map fst fs2)).
    { unfold fs2. destruct HM as [->|(lf & o' & ->)]; cbn [with_length].
      - split; [apply set_get_same; exact Ib|]. split; [intros lf n o' []|]. split; [|rewrite set_fst; exact Isf]. intros g Ng _. apply set_get_other. exact Ng.
      - destruct (NM lf (WLen 4 o') (or_introl eq_refl)) as (L1 & L2 & L3). split; [rewrite set_get_other by congruence; apply set_get_same; exact Ib|]. split; [|split; [|rewrite !set_fst; exact Isf]].
        + intros lf' n o'' [[= <- <- <-]|[]]. apply set_get_same. rewrite set_fst. exact L1.
        + intros g Ng Nl. rewrite !set_get_other; auto. intros ->. apply (Nl (WLen 4 o')). left. reflexivity. }
    destruct G2 as (G1 & G2 & G3 & G4).
    assert (G5 : get sf fs2 = get sf (set bf x fs)).
    { rewrite set_get_other by exact Nsb. apply G3; [exact Nsb|]. intros w K. exact (proj2 (proj2 (NM _ _ K)) eq_refl). }
    cbn [ending] in EN. rewrite Hsv in EN. destruct (s b2) as [[e'|z] b3] eqn:ES.
    + destruct EN as (-> & -> & ->). left. exists body, x', b2, d. split; [reflexivity|]. split; [exact AE|]. left. split; [exact ES|exact G5].
    + destruct EN as (-> & W3 & EN). destruct e as [e|].
      * destruct EN as (-> & cs & EN). left. exists body, x', b2, d. split; [reflexivity|]. split; [exact AE|]. right. split; [reflexivity|]. exists z, b3, cs. split; [exact ES|]. split; [exact EN|]. apply set_get_same. exact G4.
      * exists body, x', b2, z, b3, d. split; [reflexivity|]. split; [exact AE|]. split; [exact ES|]. split; [exact EN|]. split; [exact W3|]. cbn [value]. split; [apply set_get_same; exact G4|]. split; [rewrite set_get_other by congruence; exact G1|]. split.
        -- intros lf n o' K. destruct (NM _ _ K) as (_ & _ & N3). rewrite set_get_other by exact N3. exact (G2 lf n o' K).
        -- intros g w K. destruct (NA g w K) as (N1 & N2 & N3). rewrite !set_get_other by assumption. apply G3; [exact N1|]. intros w' K2. exact (N3 g w' K2 eq_refl).
Qed.

(* a service that leaves the buffer alone: encode appends the frame with the service's number, and nothing else *)
Theorem C71_service_leaving_the_buffer_alone : forall W E d c fs x A M bf k sf o alg s v b v1 b1, classes E = lib_classes -> object_of E c (VObj c fs) = true ->
  find c Y = Some (A ++ M ++ [(bf, WBody k); (sf, WSum 4 o alg)]) -> framing A M [(sf, WSum 4 o alg)] = true -> good_body W E x -> (forall alg s, services W alg = Some s -> careful s) ->
  services W alg = Some s -> (forall b, snd (s b) = b) ->
  call_set E (VObj c fs) (setter bf) x = Some v -> buf_wf b = true -> encode_open W E d v b = (None, v1, b1) ->
  exists body z b2, appended b (bytes_of Y v A ++ length_bytes M (List.length body) ++ body) b2 /\ s b2 = (inr z, b2)
    /\ appended b (bytes_of Y v A ++ length_bytes M (List.length body) ++ body ++ number o 4 z) b1 /\ value sf v1 = VInt (wrap 32 z).
Proof.
  intros W E d c fs x A M bf k sf o alg s v b v1 b1 HE Hv HL Fr Gb HS Hsv Al Hs Hb He.
  destruct (C71_any_service W E d c fs x A M bf k sf o alg s v b None v1 b1 HE Hv HL Fr Gb HS Hsv Hs Hb He) as (body & x' & b2 & z & b3 & d' & _ & (_ & A2 & _) & ES & A3 & _ & Vz & _).
  pose proof (Al b2) as Q. rewrite ES in Q. cbn [snd] in Q. subst b3. exists body, z, b2. split; [exact A2|]. split; [exact ES|]. split; [|exact Vz].
  pose proof (appended_trans _ _ _ _ _ A2 A3) as T. rewrite <- !app_assoc in T. exact T.
Qed.

(* ---- concrete cases ---- *)
(* a user's class: one long, written in the buffer's order *)
Definition tick_new : list (string * val) := [("price", VInt 0)]%string.
Definition tick : user_class :=
  {| u_new := tick_new;
     u_enc := fun fs b => match get "price" fs with VInt z => let '(e, b') := write_int BE 8 z b in (e, fs, b') | _ => (Some NPE, fs, b) end;
     u_dec := fun fs b => match read_bytes 8 b with (inr bs, b') => (None, set "price" (VInt (get_int BE bs)) fs, b') | (inl e, b') => (Some e, fs, b') end |}.
(* BodyMessageFactory.register(9001, Tick::new) *)
Definition tick_env : env :=
  {| classes := lib_classes; factory := fun o t => match t with KInt z => if (String.eqb o "sse.SseBinary") && (z =? 9001) then Some "user.Tick"%string else factory lib_env o t | _ => factory lib_env o t end; checksum := checksum lib_env |}.
Definition as_service (c : list Z -> Z) : service := fun b => (inr (c (readable b)), b).
Definition tick_world : world :=
  {| users := fun c => if String.eqb c "user.Tick" then Some tick else None; services := fun alg => match checksum lib_env alg with Some c => Some (as_service c) | None => None end |}.
Definition s_tick : val := build "sse.SseBinary" [("msgType", VInt 9001); ("msgSeqNum", VInt 7); ("checksum", VInt 99)]%string.
Definition tick_fields : list (string * val) := match s_tick with VObj _ fs => fs | _ => [] end.
Definition tick_ufs : list (string * val) := [("price", VInt (-123456789012))]%string.
Definition sse_head : layout := [("msgType", WInt 4 BE); ("msgSeqNum", WInt 8 BE)]%string.
Definition sse_len : layout := [("msgBodyLen", WLen 4 BE)]%string.
Definition sse_tail : layout := [("checksum", WSum 4 BE "SSE_BIN")]%string.
Lemma tick_appends : appends (u_enc tick).
Proof.
  intros fs b fs' b' Hb H. cbn [u_enc tick] in H. destruct (get "price" fs) as [|z| | | |]; try discriminate H. apply buf_wf_iff in Hb. pose proof (wrote_int BE 8 z b Hb) as Q. destruct (write_int BE 8 z b) as [[e|] b1]; [discriminate H|]. injection H as <- <-.
  destruct Q as [Q1 Q2]. split; [apply buf_wf_iff; exact Q2|eauto].
Qed.
Lemma tick_computes : forall alg, computes tick_world tick_env alg.
Proof. intros alg. unfold computes. cbn [services tick_world checksum tick_env]. destruct (checksum lib_env alg); [reflexivity|exact Logic.I]. Qed.
Lemma tick_reads_back : forall b1 ufs' b2 body r rest, buf_wf b1 = true -> u_enc tick tick_ufs b1 = (None, ufs', b2) -> appended b1 body b2 -> buf_wf r = true -> readable r = body ++ rest -> exists r', u_dec tick (u_new tick) r = (None, ufs', r') /\ advanced r (List.length body) r'.
Proof.
  intros b1 ufs' b2 body r rest Hb H A Hr Er. cbn [u_enc tick tick_ufs get String.eqb Ascii.eqb Bool.eqb] in H. apply buf_wf_iff in Hb. apply buf_wf_iff in Hr. pose proof (wrote_int BE 8 (-123456789012) b1 Hb) as Q.
  destruct (write_int BE 8 (-123456789012) b1) as [[e|] b2']; [discriminate H|]. injection H as <- <-. destruct Q as [Q _]. pose proof (app_content _ _ _ A) as C1. rewrite (app_content _ _ _ Q) in C1. apply app_inv_head in C1. subst body.
  cbn [u_dec tick]. pose proof (read_bytes_ok r _ rest Hr Er) as R. rewrite number_length in R |- *. rewrite R. eexists. split; [|reflexivity]. rewrite get_int_number_id by (lia || reflexivity). reflexivity.
Qed.

Example C70_meets :
  let v := VObj "sse.SseBinary" (set "body" (VObj "user.Tick" tick_ufs) tick_fields) in
  object_of tick_env "sse.SseBinary" (VObj "sse.SseBinary" tick_fields) = true
  /\ find "sse.SseBinary" Y = Some (sse_head ++ sse_len ++ ("body"%string, WBody "msgType") :: sse_tail) /\ framing sse_head sse_len sse_tail = true
  /\ find_class tick_env "user.Tick" = None /\ users tick_world "user.Tick" = Some tick /\ appends (u_enc tick) /\ (forall alg, computes tick_world tick_env alg)
  /\ (forall g w', In (g, w') sse_head -> parsable Y (factory tick_env) (get g tick_fields) w' = true /\ (nesting (get g tick_fields) <= 1)%nat)
  /\ In ("msgType", WInt 4 BE)%string sse_head /\ tag_of (get "msgType" tick_fields) (WInt 4 BE) = Some (KInt 9001) /\ factory tick_env "sse.SseBinary" (KInt 9001) = Some "user.Tick"%string
  /\ (forall b1 ufs' b2 body r rest, buf_wf b1 = true -> u_enc tick tick_ufs b1 = (None, ufs', b2) -> appended b1 body b2 -> buf_wf r = true -> readable r = body ++ rest -> exists r', u_dec tick (u_new tick) r = (None, ufs', r') /\ advanced r (List.length body) r')
  /\ call_set tick_env (VObj "sse.SseBinary" tick_fields) (setter "body") (VObj "user.Tick" tick_ufs) = Some v
  /\ let '(e, v1, b1) := encode_open tick_world tick_env 2 v empty_buf in
     e = None /\ readable b1 = [0;0;35;41; 0;0;0;0;0;0;0;7; 0;0;0;8; 255;255;255;227;65;102;229;236; 0;0;0;99] /\ value "msgBodyLen" v1 = VInt 8
     /\ decode_open tick_world tick_env 2 (new_obj tick_env "sse.SseBinary") b1 = (None, v1, set_ridx b1 28).
Proof.
  cbv zeta. split; [vm_compute; reflexivity|]. split; [vm_compute; reflexivity|]. split; [reflexivity|]. split; [vm_compute; reflexivity|]. split; [reflexivity|]. split; [exact tick_appends|]. split; [exact tick_computes|].
  split; [intros g w' K; destruct K as [[= <- <-]|[[= <- <-]|[]]]; vm_compute; (split; [reflexivity|lia])|]. split; [left; reflexivity|]. split; [reflexivity|]. split; [reflexivity|]. split; [exact tick_reads_back|].
  split; [vm_compute; reflexivity|]. vm_compute. repeat split.
Qed.
(* the same message, given a body that throws *)
Example C70_meets_throwing :
  let v := VObj "sse.SseBinary" (set "body" (VObj "user.Tick" [("price", VNull)]) tick_fields)%string in
  let '(e, v1, b1) := encode_open tick_world tick_env 2 v empty_buf in e = Some NPE /\ readable b1 = [0;0;35;41; 0;0;0;0;0;0;0;7; 0;0;0;0] /\ v1 = v.
Proof. vm_compute. repeat split. Qed.

(* a service that reads the bytes it is given, and one that throws *)
Definition consuming : service := fun b => (inr 513, set_ridx b (widx b)).
Definition throwing : service := fun b => (inl IAE, b).
Definition sum_world (s : service) : world := {| users := users tick_world; services := fun alg => if String.eqb alg "SSE_BIN" then Some s else None |}.
Lemma consuming_careful : careful consuming.
Proof.
  intros b Hb. unfold consuming. cbn [snd]. apply buf_wf_iff in Hb. apply buf_wf_iff. destruct Hb. constructor; cbn; auto.
Qed.
Example C71_meets :
  let v := VObj "sse.SseBinary" (set "body" s_logon tick_fields) in
  object_of tick_env "sse.SseBinary" (VObj "sse.SseBinary" tick_fields) = true /\ good_body (sum_world consuming) tick_env s_logon
  /\ (forall alg s, services (sum_world consuming) alg = Some s -> careful s) /\ services (sum_world consuming) "SSE_BIN" = Some consuming
  /\ call_set tick_env (VObj "sse.SseBinary" tick_fields) (setter "body") s_logon = Some v
  /\ (let '(e, v1, b1) := encode_open (sum_world consuming) tick_env 2 v empty_buf in e = None /\ readable b1 = [0;0;2;1] /\ value "checksum" v1 = VInt 513)
  /\ (let '(e, v1, b1) := encode_open (sum_world throwing) tick_env 2 v empty_buf in e = Some IAE /\ List.length (readable b1) = 98%nat /\ value "checksum" v1 = VInt 99).
Proof.
  cbv zeta. split; [vm_compute; reflexivity|]. split; [right; left; exists "sse.Logon"%string; split; vm_compute; reflexivity|].
  split; [intros alg s H; cbn [services sum_world] in H; destruct (String.eqb alg "SSE_BIN"); [injection H as <-; exact consuming_careful|discriminate H]|]. split; [reflexivity|]. split; [vm_compute; reflexivity|]. split; vm_compute; repeat split.
Qed.
(* so it is not true that encode only appends, whatever the checksum service does *)
Theorem C71_encode_only_appends_refuted : exists W v b v1 b1, (forall alg s, services W alg = Some s -> careful s) /\ object_of tick_env "sse.SseBinary" v = true /\ buf_wf b = true
  /\ encode_open W tick_env 2 v b = (None, v1, b1) /\ readable b = [] /\ readable b1 = number BE 4 513 /\ ~ exists bs, appended b bs b1.
Proof.
  exists (sum_world consuming), (VObj "sse.SseBinary" (set "body" s_logon tick_fields)), empty_buf. eexists _, _.
  split; [intros alg s H; cbn [services sum_world] in H; destruct (String.eqb alg "SSE_BIN"); [injection H as <-; exact consuming_careful|discriminate H]|]. split; [vm_compute; reflexivity|]. split; [vm_compute; reflexivity|]. split; [vm_compute; reflexivity|]. split; [vm_compute; reflexivity|]. split; [vm_compute; reflexivity|].
  intros (bs & A). apply app_ridx in A. discriminate A.
Qed.

Print Assumptions C70_library_messages_encode.
Print Assumptions C70_library_messages_decode.
Print Assumptions C70_every_body.
Print Assumptions C70_user_body.
Print Assumptions C70_user_body_decoded.
Print Assumptions C70_user_round_trip.
Print Assumptions C71_services_are_called_by.
Print Assumptions C71_any_service.
Print Assumptions C71_service_leaving_the_buffer_alone.
Print Assumptions C71_encode_only_appends_refuted.
