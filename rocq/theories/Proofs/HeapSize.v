(* What decode adds to the heap is paid for by the bytes it reads. *)
From Coq Require Import ZArith List Bool String Lia.
From Verif.Model Require Import JavaPrim ByteBuf Utf8 Codec Ast Interp Show Heap Library.
From Verif.Spec Require Import Bytes Buffers Wire Sharing Sizes Allocation.
From Verif.Proofs Require Import BytesFacts BufFacts Utf8Facts CodecFacts DecodeFacts DecodeRel DecodeInv HeapFacts HeapTypes.
Import ListNotations.
Open Scope Z_scope.
Open Scope list_scope.

(* ---------- sums ---------- *)
Lemma sum_apart {A} (f : A -> nat) l m : sum_of f (l ++ m) = (sum_of f l + sum_of f m)%nat.
Proof. induction l as [|a l IH]; cbn; [reflexivity|]. rewrite IH. lia. Qed.
Lemma sum_upd {A} (f : A -> nat) h l x y : nth_error h l = Some x -> (sum_of f (upd h l y) + f x = sum_of f h + f y)%nat.
Proof.
  intros H. unfold upd. rewrite sum_apart. assert (Q : sum_of f h = (sum_of f (firstn l h) + sum_of f (skipn l h))%nat) by (rewrite <- sum_apart, firstn_skipn; reflexivity). rewrite Q. clear Q.
  assert (S : exists r, skipn l h = x :: r). { clear y. revert l H. induction h as [|a h IH]; intros [|l] H; cbn in *; try discriminate; [injection H as <-; eauto|auto]. }
  destruct S as (r & ->). cbn. lia.
Qed.
Definition fields_chars (fs : list (string * hval)) : nat := sum_of (fun fv => val_chars (snd fv)) fs.
Lemma hset_chars f x fs : (fields_chars (hset f x fs) <= fields_chars fs + val_chars x)%nat.
Proof. unfold fields_chars. induction fs as [|[g v] fs IH]; cbn; [lia|]. destruct (String.eqb f g); cbn; lia. Qed.
Lemma put_items h l f x : list_items (put_field h l f x) = list_items h.
Proof.
  unfold put_field. destruct (nth_error h l) as [[c fs|vs]|] eqn:H; try reflexivity. pose proof (sum_upd (fun c => match c with CList vs => List.length vs | CObj _ _ => 0%nat end) h l _ (CObj c (hset f x fs)) H) as S. cbn beta iota in S. unfold list_items. lia.
Qed.
Lemma put_chars h l f x : (text_size (put_field h l f x) <= text_size h + val_chars x)%nat.
Proof.
  unfold put_field. destruct (nth_error h l) as [[c fs|vs]|] eqn:H; try lia.
  pose proof (sum_upd (fun c => match c with CObj _ fs => sum_of (fun fv => val_chars (snd fv)) fs | CList vs => sum_of val_chars vs end) h l _ (CObj c (hset f x fs)) H) as S. cbn beta iota in S.
  pose proof (hset_chars f x fs) as K. unfold fields_chars in K. unfold text_size. lia.
Qed.
Lemma add_length h v x : List.length (list_add h v x) = List.length h.
Proof. unfold list_add. destruct v as [|z|z|s|l]; try reflexivity. destruct (nth_error h l) as [[c fs|vs]|]; try reflexivity. apply upd_length. Qed.
Lemma add_items h v x : (list_items (list_add h v x) <= list_items h + 1)%nat.
Proof.
  unfold list_add. destruct v as [|z|z|s|l]; try lia. destruct (nth_error h l) as [[c fs|vs]|] eqn:H; try lia.
  pose proof (sum_upd (fun c => match c with CList vs => List.length vs | CObj _ _ => 0%nat end) h l _ (CList (vs ++ [x])) H) as S. cbn beta iota in S. rewrite app_length in S. cbn [List.length] in S. unfold list_items. lia.
Qed.
Lemma add_chars h v x : (text_size (list_add h v x) <= text_size h + val_chars x)%nat.
Proof.
  unfold list_add. destruct v as [|z|z|s|l]; try lia. destruct (nth_error h l) as [[c fs|vs]|] eqn:H; try lia.
  pose proof (sum_upd (fun c => match c with CObj _ fs => sum_of (fun fv => val_chars (snd fv)) fs | CList vs => sum_of val_chars vs end) h l _ (CList (vs ++ [x])) H) as S. cbn beta iota in S. rewrite sum_apart in S. cbn in S. unfold text_size. lia.
Qed.

(* ---------- from one state to another ---------- *)
Definition Zl {A} (l : list A) : Z := Z.of_nat (List.length l).
(* at least p bytes were read beyond one for every object or list created, at least i beyond one for every element added, and at least one for every char added *)
Definition paid (p i : Z) (h : heap) (b : bytebuf) (h' : heap) (b' : bytebuf) : Prop :=
  Zl h <= Zl h' /\ p <= (Z.of_nat (ridx b') - Z.of_nat (ridx b)) - (Zl h' - Zl h)
  /\ Z.of_nat (list_items h') - Z.of_nat (list_items h) <= Z.of_nat (ridx b') - Z.of_nat (ridx b) - i
  /\ Z.of_nat (text_size h') - Z.of_nat (text_size h) <= Z.of_nat (ridx b') - Z.of_nat (ridx b)
  /\ Z.of_nat (ridx b) <= Z.of_nat (ridx b').
Lemma paid_refl h b : paid 0 0 h b h b. Proof. unfold paid. lia. Qed.
Lemma paid_trans p i q j h b h1 b1 h2 b2 : paid p i h b h1 b1 -> paid q j h1 b1 h2 b2 -> paid (p + q) (i + j) h b h2 b2. Proof. unfold paid. lia. Qed.
Lemma paid_less p i q j h b h1 b1 : paid p i h b h1 b1 -> q <= p -> j <= i -> paid q j h b h1 b1. Proof. unfold paid. lia. Qed.
Lemma paid_bytes h b n : paid (Z.of_nat n) (Z.of_nat n) h b h (adv b n).
Proof. unfold paid, adv, set_ridx. cbn [ridx]. lia. Qed.
Lemma paid_put h b h1 b1 p i l f x : paid p i h b h1 b1 -> Z.of_nat (text_size h1) + Z.of_nat (val_chars x) - Z.of_nat (text_size h) <= Z.of_nat (ridx b1) - Z.of_nat (ridx b) -> paid p i h b (put_field h1 l f x) b1.
Proof. unfold paid, Zl. rewrite put_length, put_items. pose proof (put_chars h1 l f x). lia. Qed.
Lemma paid_new h b E c : paid (-1) 0 h b (fst (hnew E h c)) b.
Proof.
  unfold hnew. destruct (find_class E c) as [cd|]; [|apply (paid_less 0 0); [apply paid_refl|lia|lia]]. unfold paid, Zl, list_items, text_size. cbn [alloc_cell fst]. rewrite app_length, !sum_apart. cbn [List.length sum_of].
  assert (Z0 : sum_of (fun fv : string * hval => val_chars (snd fv)) (map (fun ft => (fst ft, hdefault (snd ft))) (c_fields cd)) = 0%nat).
  { induction (c_fields cd) as [|[f t] F IH]; [reflexivity|]. cbn [map sum_of fst snd]. rewrite IH. destruct t; reflexivity. }
  rewrite Z0. lia.
Qed.
Lemma paid_list h b : paid (-1) 0 h b (h ++ [CList []]) b.
Proof. unfold paid, Zl, list_items, text_size. rewrite app_length, !sum_apart. cbn. lia. Qed.

(* ---------- a check of the classes ---------- *)
(* the bytes decode reads at least when it returns, less one for every object or list it may create *)
Definition gain1 (s : dstmt) : Z :=
  match s with
  | DRead n _ _ | DReadF n _ _ | DDyn _ n _ => Z.of_nat n
  | DFix _ len _ _ => len
  | DList _ n _ _ => Z.of_nat n - 1
  | DCreate _ _ => -1
  | DNewIfNull _ _ | DObj _ => 0
  end.
Definition width1 (s : dstmt) : Z := match s with DRead n _ _ | DReadF n _ _ | DDyn _ n _ | DList _ n _ _ => Z.of_nat n | DFix _ len _ _ => Z.max 0 len | _ => 0 end.
Definition width (ss : list dstmt) : Z := fold_right (fun s z => width1 s + z) 0 ss.
Lemma width_pos ss : 0 <= width ss.
Proof. induction ss as [|s ss IH]; [cbn; lia|]. change (width (s :: ss)) with (width1 s + width ss). destruct s; cbn [width1]; lia. Qed.
Definition gain (ss : list dstmt) : Z := fold_right (fun s z => gain1 s + z) 0 ss.
(* the same when it throws, p: up to here.  pays S p q ss: never less than q *)
Section Check.
  Variable E : env.
  Definition gain_of (c : string) : Z := match find_class E c with Some cd => gain (c_dec cd) | None => 0 end.
  Fixpoint pays (simple : string -> bool) (p q : Z) (ss : list dstmt) : bool :=
    match ss with
    | [] => true
    | DNewIfNull f c :: r => match r with DObj g :: r' => String.eqb f g && simple c && (1 <=? gain_of c) && (q <=? p - 1) && pays simple p q r' | _ => false end
    | DObj _ :: r => (q <=? p - 1) && pays simple p q r
    | DFix f len _ _ as s :: r => (0 <=? len) && (q <=? p) && pays simple (p + gain1 s) q r
    | DList f n _ y as s :: r => (q <=? p) && (1 <=? Z.of_nat n) && match y with
                                                   | YObj c => (1 <=? gain_of c) && (q <=? p + gain1 s - 2)
                                                   | YInt m _ | YFlt m _ | YDyn m _ => (1 <=? Z.of_nat m) && (q <=? p + gain1 s)
                                                   | YFix len _ _ => (1 <=? len) && (q <=? p + gain1 s)
                                                   end && pays simple (p + gain1 s) q r
    | DCreate _ _ as s :: r => (q <=? p) && (q <=? p + gain1 s) && pays simple (p + gain1 s) q r
    | s :: r => (q <=? p) && pays simple (p + gain1 s) q r
    end.
  Definition simple_of (c : string) : bool := match find_class E c with Some cd => pays (fun _ => false) 0 0 (c_dec cd) | None => false end.
  Definition class_pays (cd : class_def) : bool := (0 <=? gain (c_dec cd)) && pays simple_of 0 (-1) (c_dec cd).
End Check.

(* ---------- reading ---------- *)
Lemma read_paid n h b : bk b -> match read_bytes n b with (inr _, b') => bk b' /\ paid (Z.of_nat n) (Z.of_nat n) h b h b' | (inl _, b') => b' = b end.
Proof. intros H. destruct (read_bytes_cases n b) as [[bs T]|R]; [unfold took in T; rewrite T; split; [auto|apply paid_bytes]|rewrite R; reflexivity]. Qed.
(* what read_chars returns is no longer than what it has read *)
Lemma chars_paid len h b : bk b -> match read_chars len b with
  | (inr cs, b') => bk b' /\ 0 <= len /\ paid len len h b h b' /\ Zl (utf8_decode cs) <= Z.of_nat (ridx b') - Z.of_nat (ridx b) | (inl _, b') => b' = b end.
Proof.
  intros H. destruct (Z.ltb_spec len 0) as [L|L].
  - unfold read_chars. destruct (Z.eqb_spec len 0); [lia|]. destruct (Z.ltb_spec len 0); [reflexivity|lia].
  - destruct (read_chars_cases len b L) as [[bs T]|R]; [|rewrite R; reflexivity]. pose proof T as T'. unfold took_chars in T'. rewrite Z2Nat.id in T' by lia. rewrite T'. destruct (took_chars_inv b _ bs H T) as (A & _).
    split; [auto|]. split; [exact L|]. split; [pose proof (paid_bytes h b (Z.to_nat len)) as PB; rewrite Z2Nat.id in PB by lia; exact PB|]. pose proof (decode_length bs). unfold Zl, adv, set_ridx. cbn [ridx]. lia.
Qed.
Lemma fixed_paid len pad lft h b : bk b -> match read_fixed len pad lft b with
  | (inr s, b') => bk b' /\ 0 <= len /\ paid len len h b h b' /\ Zl s <= Z.of_nat (ridx b') - Z.of_nat (ridx b) | (inl _, b') => b' = b end.
Proof.
  intros H. unfold read_fixed. pose proof (chars_paid len h b H) as R. destruct (read_chars len b) as [[e|bs] b']; [exact R|]. destruct R as (A & B & C & D). split; [exact A|]. split; [exact B|]. split; [exact C|].
  assert (K : forall x, (List.length (trim_by_char (utf8_decode bs) pad x) <= List.length (utf8_decode bs))%nat) by (intros x; rewrite trim_spec; apply strip_length).
  unfold Zl in *. destruct lft; [pose proof (K true)|pose proof (K false)]; lia.
Qed.

(* ---------- decode ---------- *)
Section Paid.
  Variable E : env.
  Definition cheap (dec : heap -> hval -> bytebuf -> option exn * heap * bytebuf) : Prop :=
    forall h v b, bk b -> let '(e, h', b') := dec h v b in bk b' /\
      match e with
      | None => exists l c fs, v = HRef l /\ nth_error h l = Some (CObj c fs) /\ paid (gain_of E c) (gain_of E c) h b h' b' /\ paid 0 0 h b h' b'
      | Some _ => paid (-1) 0 h b h' b' /\ ((forall l c fs, v = HRef l -> nth_error h l = Some (CObj c fs) -> simple_of E c = true) -> paid 0 0 h b h' b')
      end.
  Variable dec : heap -> hval -> bytebuf -> option exn * heap * bytebuf.
  Hypothesis D : cheap dec.
  Variable create : key -> option string.
  Variable this : nat.

  Definition elem_ok (y : delem) : bool :=
    match y with
    | YObj c => 1 <=? gain_of E c
    | YInt m _ | YFlt m _ | YDyn m _ => 1 <=? Z.of_nat m
    | YFix len _ _ => 1 <=? len
    end.
  Definition elem_low (y : delem) : Z := match y with YObj _ => -2 | _ => 0 end.
  Lemma paid_add h b h1 b1 p i v x : paid p i h b h1 b1 -> Z.of_nat (list_items h1) + 1 - Z.of_nat (list_items h) <= Z.of_nat (ridx b1) - Z.of_nat (ridx b) - i ->
    Z.of_nat (text_size h1) + Z.of_nat (val_chars x) - Z.of_nat (text_size h) <= Z.of_nat (ridx b1) - Z.of_nat (ridx b) -> paid p i h b (list_add h1 v x) b1.
  Proof. unfold paid, Zl. rewrite add_length. pose proof (add_items h1 v x). pose proof (add_chars h1 v x). lia. Qed.
  Lemma elem_paid f y h b : elem_ok y = true -> bk b -> let '(e, (h', b')) := hdec_elem dec (hnew E) this f y (h, b) in bk b' /\ paid (match e with None => 0 | Some _ => elem_low y end) 0 h b h' b'.
  Proof.
    intros Y B. pose proof (paid_refl h b) as Z0. destruct y; cbn [hdec_elem elem_ok elem_low] in *.
    - apply Z.leb_le in Y. pose proof (read_paid n h b B) as R. destruct (read_bytes n b) as [[e|bs] b']; [subst b'; auto|]. destruct R as [B1 R]. split; [exact B1|]. apply paid_add; [eapply paid_less; [exact R|lia|lia]| |]; unfold paid in R; cbn [val_chars]; lia.
    - apply Z.leb_le in Y. pose proof (read_paid n h b B) as R. destruct (read_bytes n b) as [[e|bs] b']; [subst b'; auto|]. destruct R as [B1 R]. split; [exact B1|]. apply paid_add; [eapply paid_less; [exact R|lia|lia]| |]; unfold paid in R; cbn [val_chars]; lia.
    - apply Z.leb_le in Y. pose proof (fixed_paid len pad left h b B) as R. destruct (read_fixed len pad left b) as [[e|s] b']; [subst b'; auto|]. destruct R as (B1 & _ & R & S). split; [exact B1|]. apply paid_add; [eapply paid_less; [exact R|lia|lia]| |]; unfold paid, Zl in *; cbn [val_chars]; lia.
    - apply Z.leb_le in Y. pose proof (read_paid n h b B) as R. destruct (read_bytes n b) as [[e|bs] b']; [subst b'; auto|]. destruct R as [B1 R]. cbv zeta. destruct (get_int o bs >? 0) eqn:G; [|split; [exact B1|eapply paid_less; [exact R|lia|lia]]].
      pose proof (chars_paid (get_int o bs) h b' B1) as S. destruct (read_chars (get_int o bs) b') as [[e|cs] b2]; [subst b2; split; [exact B1|eapply paid_less; [exact R|lia|lia]]|]. destruct S as (B2 & L & S & T). split; [exact B2|].
      pose proof (paid_trans _ _ _ _ _ _ _ _ _ _ R S) as RS. apply paid_add; [eapply paid_less; [exact RS|lia|lia]| |]; unfold paid, Zl in *; cbn [val_chars]; lia.
    - apply Z.leb_le in Y. pose proof (paid_new h b E c) as N. assert (FC : find_class E c <> None) by (unfold gain_of in Y; destruct (find_class E c); [discriminate|lia]). unfold hnew in *. destruct (find_class E c) as [cd|]; [|contradiction]. cbn [alloc_cell fst] in *.
      set (h1 := h ++ _) in *. specialize (D h1 (HRef (List.length h)) b B). destruct (dec h1 (HRef (List.length h)) b) as [[[e|] h2] b2]; destruct D as [B2 Q]; (split; [exact B2|]).
      + destruct Q as [Q _]. exact (paid_trans _ _ _ _ _ _ _ _ _ _ N Q).
      + destruct Q as (l & c' & fs & Ev & Hl & Q & _). injection Ev as <-. unfold h1 in Hl. rewrite nth_app_new in Hl. injection Hl as <- <-. pose proof (paid_trans _ _ _ _ _ _ _ _ _ _ N Q) as R.
        apply paid_add; [eapply paid_less; [exact R|lia|lia]| |]; unfold paid in R, N, Q; cbn [val_chars]; [|lia]. unfold Zl in *. assert (list_items h1 = list_items h) by (unfold h1, list_items; rewrite sum_apart; cbn; lia). lia.
  Qed.
  Lemma loop_paid f y : elem_ok y = true -> forall n h b, bk b -> let '(e, (h', b')) := iter n (hdec_elem dec (hnew E) this f y) (h, b) in bk b' /\ paid (match e with None => 0 | Some _ => elem_low y end) 0 h b h' b'.
  Proof.
    intros Y. induction n as [|n IH]; intros h b B; cbn [iter]; [split; [exact B|apply paid_refl]|]. pose proof (elem_paid f y h b Y B) as R. destruct (hdec_elem dec (hnew E) this f y (h, b)) as [[e|] [h1 b1]]; destruct R as [B1 R]; [auto|].
    specialize (IH h1 b1 B1). destruct (iter n (hdec_elem dec (hnew E) this f y) (h1, b1)) as [e [h2 b2]]. destruct IH as [B2 Q]. split; [exact B2|]. exact (paid_trans 0 0 _ _ _ _ _ _ _ _ R Q).
  Qed.

  Variable simple : string -> bool.
  Hypothesis HS : forall c, simple c = true -> simple_of E c = true.
  Hypothesis HG : forall c, 0 <= gain_of E c.
  Lemma stmts_paid q h0 b0 : (this < List.length h0)%nat -> forall n ss h b p i, (List.length ss <= n)%nat -> 0 <= i -> pays E simple p q ss = true -> bk b -> paid p i h0 b0 h b ->
    let '(e, (h', b')) := hexec_dec dec (hnew E) create this ss (h, b) in bk b' /\ match e with None => paid (p + gain ss) (i + width ss) h0 b0 h' b' | Some _ => paid q 0 h0 b0 h' b' end.
  Proof.
    intros IN. assert (PUT0 : forall h1 b1 p i l f x, paid p i h0 b0 h1 b1 -> val_chars x = 0%nat -> paid p i h0 b0 (put_field h1 l f x) b1).
    { intros h1 b1 p i l f x H V. apply paid_put; [exact H|]. rewrite V. unfold paid in H. lia. }
    induction n as [|n IH]; intros [|s ss] h b p i Len I0 Hp B H; try (cbn in Len; lia); try (cbn [hexec_dec gain width fold_right]; split; [exact B|]; eapply paid_less; [exact H|lia|lia]).
    cbn [List.length] in Len. cbn [hexec_dec]. change (gain (s :: ss)) with (gain1 s + gain ss). change (width (s :: ss)) with (width1 s + width ss).
    assert (STOP : forall p' i' h1 b1, paid p' i' h0 b0 h1 b1 -> bk b1 -> q <= p' -> 0 <= i' -> bk b1 /\ paid q 0 h0 b0 h1 b1) by (intros; split; [assumption|eapply paid_less; eauto]).
    assert (GO : forall h1 b1, paid (p + gain1 s) (i + width1 s) h0 b0 h1 b1 -> bk b1 -> pays E simple (p + gain1 s) q ss = true ->
      let '(e, (h', b')) := hexec_dec dec (hnew E) create this ss (h1, b1) in bk b' /\ match e with None => paid (p + (gain1 s + gain ss)) (i + (width1 s + width ss)) h0 b0 h' b' | Some _ => paid q 0 h0 b0 h' b' end).
    { intros h1 b1 H1 B1 Hq. assert (W1 : 0 <= width1 s) by (destruct s; cbn [width1]; lia). specialize (IH ss h1 b1 (p + gain1 s) (i + width1 s) ltac:(lia) ltac:(lia) Hq B1 H1). destruct (hexec_dec dec (hnew E) create this ss (h1, b1)) as [[e|] [h2 b2]]; destruct IH as [B2 R]; (split; [exact B2|]); [exact R|].
      eapply paid_less; [exact R|lia|lia]. }
    destruct s; cbn [pays hexec_dstmt gain1 width1] in *.
    - apply andb_true_iff in Hp. destruct Hp as [Hq Hp]. apply Z.leb_le in Hq. pose proof (read_paid n0 h b B) as R. destruct (read_bytes n0 b) as [[e|bs] b']; [subst b'; eapply STOP; eauto|]. destruct R as [B1 R].
      apply GO; [|exact B1|exact Hp]. apply PUT0; [|reflexivity]. exact (paid_trans _ _ _ _ _ _ _ _ _ _ H R).
    - apply andb_true_iff in Hp. destruct Hp as [Hq Hp]. apply Z.leb_le in Hq. pose proof (read_paid n0 h b B) as R. destruct (read_bytes n0 b) as [[e|bs] b']; [subst b'; eapply STOP; eauto|]. destruct R as [B1 R].
      apply GO; [|exact B1|exact Hp]. apply PUT0; [|reflexivity]. exact (paid_trans _ _ _ _ _ _ _ _ _ _ H R).
    - rewrite !andb_true_iff in Hp. destruct Hp as [[Hl Hq] Hp]. apply Z.leb_le in Hq, Hl. pose proof (fixed_paid len pad left h b B) as R. destruct (read_fixed len pad left b) as [[e|s] b']; [subst b'; eapply STOP; eauto|]. destruct R as (B1 & _ & R & S).
      apply GO; [|exact B1|exact Hp]. pose proof (paid_trans _ _ _ _ _ _ _ _ _ _ H R) as HR. apply paid_put; [rewrite Z.max_r by lia; exact HR|]. unfold paid, Zl in *. cbn [val_chars]. lia.
    - apply andb_true_iff in Hp. destruct Hp as [Hq Hp]. apply Z.leb_le in Hq. pose proof (read_paid n0 h b B) as R. destruct (read_bytes n0 b) as [[e|bs] b']; [subst b'; eapply STOP; eauto|]. destruct R as [B1 R].
      pose proof (paid_trans _ _ _ _ _ _ _ _ _ _ H R) as HR. cbv zeta. destruct (get_int o bs >? 0); [|apply GO; assumption].
      pose proof (chars_paid (get_int o bs) h b' B1) as S. destruct (read_chars (get_int o bs) b') as [[e|cs] b2]; [subst b2; eapply STOP; [exact HR|exact B1|lia|lia]|]. destruct S as (B2 & L & S & T).
      apply GO; [|exact B2|exact Hp]. pose proof (paid_trans _ _ _ _ _ _ _ _ _ _ HR S) as HS2. apply paid_put; [eapply paid_less; [exact HS2|lia|lia]|]. unfold paid, Zl in *. cbn [val_chars]. lia.
    - rewrite !andb_true_iff in Hp. destruct Hp as [[[Hq Hn] Hy] Hp]. apply Z.leb_le in Hq, Hn. pose proof (read_paid n0 h b B) as R. destruct (read_bytes n0 b) as [[e|bs] b']; [subst b'; eapply STOP; eauto|]. destruct R as [B1 R].
      pose proof (paid_trans _ _ _ _ _ _ _ _ _ _ H R) as HR. cbv zeta. destruct (get_int o bs >? 0); [|apply GO; [eapply paid_less; [exact HR|lia|lia]|exact B1|exact Hp]].
      cbn [alloc_cell]. rewrite repeat_z_iter. assert (EY : elem_ok y = true /\ q <= p + (Z.of_nat n0 - 1) + elem_low y) by (destruct y; cbn [elem_ok elem_low] in *; rewrite andb_true_iff, ?Z.leb_le in Hy; (split; [apply Z.leb_le|]; lia)). destruct EY as [EY EL].
      pose proof (paid_trans _ _ _ _ _ _ _ _ _ _ HR (paid_list h b')) as HL. pose proof (PUT0 _ _ _ _ this f (HRef (List.length h)) HL eq_refl) as HP. pose proof (loop_paid f y EY (Z.to_nat (get_int o bs)) (put_field (h ++ [CList []]) this f (HRef (List.length h))) b' B1) as W.
      destruct (iter _ _ _) as [[e|] [h2 b2]]; destruct W as [B2 W]; pose proof (paid_trans _ _ _ _ _ _ _ _ _ _ HP W) as HW.
      + eapply STOP; [exact HW|exact B2|lia|lia].
      + apply GO; [eapply paid_less; [exact HW|lia|lia]|exact B2|exact Hp].
    - destruct ss as [|[] ss]; try discriminate Hp. rewrite !andb_true_iff in Hp. destruct Hp as [[[[Hf Hs] Hg] Hq] Hp]. apply String.eqb_eq in Hf. subst f0. apply Z.leb_le in Hg, Hq. change (gain (DObj f :: ss)) with (0 + gain ss). change (width (DObj f :: ss)) with (0 + width ss).
      assert (END : forall h1 b1, paid p i h0 b0 h1 b1 -> bk b1 -> let '(e, (h', b')) := hexec_dec dec (hnew E) create this ss (h1, b1) in bk b' /\ match e with None => paid (p + (0 + (0 + gain ss))) (i + (0 + (0 + width ss))) h0 b0 h' b' | Some _ => paid q 0 h0 b0 h' b' end).
      { intros h1 b1 H1 B1. exact (IH ss h1 b1 p i ltac:(cbn in Len; lia) I0 Hp B1 H1). }
      assert (OLD : field h this f <> HNull -> let '(e, (h', b')) := hexec_dec dec (hnew E) create this (DObj f :: ss) (h, b) in bk b' /\ match e with None => paid (p + (0 + (0 + gain ss))) (i + (0 + (0 + width ss))) h0 b0 h' b' | Some _ => paid q 0 h0 b0 h' b' end).
      { intros NN. cbn [hexec_dec hexec_dstmt]. pose proof (D h (field h this f) b B) as Q. destruct (dec h (field h this f) b) as [[[e|] h1] b1]; destruct Q as [B1 Q].
        - destruct Q as [Q _]. eapply STOP; [exact (paid_trans _ _ _ _ _ _ _ _ _ _ H Q)|exact B1|lia|lia].
        - destruct Q as (l & c' & fs & _ & _ & _ & Q). apply END; [|exact B1]. eapply paid_less; [exact (paid_trans _ _ _ _ _ _ _ _ _ _ H Q)|lia|lia]. }
      destruct (field h this f) eqn:Fd; try (apply OLD; discriminate). clear OLD.
      pose proof (paid_new h b E c) as N. assert (NEW : exists fs, hnew E h c = (h ++ [CObj c fs], HRef (List.length h))) by (unfold gain_of in Hg; unfold hnew; destruct (find_class E c); [eexists; reflexivity|lia]).
      destruct NEW as (fs0 & NEW). rewrite NEW in N |- *. cbn [fst] in N. set (h1 := h ++ _) in *. cbn [hexec_dec hexec_dstmt]. set (h2 := put_field h1 this f (HRef (List.length h))).
      assert (H2 : paid (p + -1) (i + 0) h0 b0 h2 b) by (apply PUT0; [exact (paid_trans _ _ _ _ _ _ _ _ _ _ H N)|reflexivity]).
      pose proof (D h2 (field h2 this f) b B) as Q.
      assert (FV : field h2 this f = HNull \/ exists fs, field h2 this f = HRef (List.length h) /\ nth_error h2 (List.length h) = Some (CObj c fs)).
      { assert (LT : (this < List.length h)%nat) by (unfold paid, Zl in H; lia). unfold h2, put_field. destruct (nth_error h1 this) as [[c1 fs1|vs]|] eqn:Ht.
        - rewrite (field_at _ _ _ _ _ (upd_at h1 this _ (nth_lt _ _ _ Ht))).
          unfold h1 in Ht. rewrite nth_app_old in Ht by exact LT. rewrite (field_at _ _ _ _ _ Ht) in Fd. destruct (in_dec string_dec f (map fst fs1)) as [J|J].
          + right. exists fs0. rewrite hget_hset by exact J. split; [reflexivity|]. rewrite upd_off by lia. apply nth_app_new.
          + left. clear - Fd J. induction fs1 as [|[g v] fs1 IH]; [reflexivity|]. cbn in *. destruct (String.eqb_spec f g) as [->|]; [tauto|]. cbn. destruct (String.eqb_spec f g); [contradiction|]. apply IH; tauto.
        - left. unfold field. rewrite Ht. reflexivity.
        - left. unfold field. rewrite Ht. reflexivity. }
      destruct (dec h2 (field h2 this f) b) as [[[e|] h3] b3]; destruct Q as [B3 Q].
      + destruct Q as [Q1 Q2]. destruct FV as [FV|(fs' & FV & Hn)].
        * specialize (Q2 ltac:(intros l c' fs Ev; congruence)). eapply STOP; [exact (paid_trans _ _ _ _ _ _ _ _ _ _ H2 Q2)|exact B3|lia|lia].
        * specialize (Q2 ltac:(intros l c' fs Ev Hl; rewrite FV in Ev; injection Ev as <-; rewrite Hn in Hl; injection Hl as <- <-; exact (HS _ Hs))). eapply STOP; [exact (paid_trans _ _ _ _ _ _ _ _ _ _ H2 Q2)|exact B3|lia|lia].
      + destruct Q as (l & c' & fs & Ev & Hl & Q & _). apply END; [|exact B3]. destruct FV as [FV|(fs' & FV & Hn)]; [congruence|]. rewrite FV in Ev. injection Ev as <-. rewrite Hn in Hl. injection Hl as <- <-. eapply paid_less; [exact (paid_trans _ _ _ _ _ _ _ _ _ _ H2 Q)|lia|lia].
    - apply andb_true_iff in Hp. destruct Hp as [Hq Hp]. apply Z.leb_le in Hq. pose proof (D h (field h this f) b B) as Q. destruct (dec h (field h this f) b) as [[[e|] h1] b1]; destruct Q as [B1 Q].
      + destruct Q as [Q _]. eapply STOP; [exact (paid_trans _ _ _ _ _ _ _ _ _ _ H Q)|exact B1|lia|lia].
      + destruct Q as (l & c' & fs & _ & _ & _ & Q). apply GO; [exact (paid_trans _ _ _ _ _ _ _ _ _ _ H Q)|exact B1|]. now rewrite Z.add_0_r.
    - rewrite !andb_true_iff in Hp. destruct Hp as [[Hq Hq'] Hp]. apply Z.leb_le in Hq, Hq'. destruct (hkey_of (field h this key)) as [kk|]; [|eapply STOP; eauto]. destruct (create kk) as [c0|]; [|eapply STOP; eauto].
      pose proof (paid_new h b E c0) as N. assert (V0 : val_chars (snd (hnew E h c0)) = 0%nat) by (unfold hnew; destruct (find_class E c0); reflexivity). destruct (hnew E h c0) as [h1 x]. cbn [fst snd] in *.
      apply GO; [apply PUT0; [exact (paid_trans _ _ _ _ _ _ _ _ _ _ H N)|exact V0]|exact B|exact Hp].
  Qed.
End Paid.
Theorem decode_paid E : (forall c cd, find_class E c = Some cd -> class_pays E cd = true) -> forall d, cheap E (hdecode E d).
Proof.
  intros CP. assert (HG : forall c, 0 <= gain_of E c).
  { intros c. unfold gain_of. destruct (find_class E c) as [cd|] eqn:Hc; [|lia]. specialize (CP c cd Hc). apply andb_true_iff in CP. now apply Z.leb_le. }
  assert (GW : forall ss, gain ss <= width ss). { induction ss as [|s ss IH]; [cbn; lia|]. change (gain (s :: ss)) with (gain1 s + gain ss). change (width (s :: ss)) with (width1 s + width ss). destruct s; cbn [gain1 width1]; lia. }
  induction d as [|d IH]; intros h v b B.
  - destruct v; cbn [hdecode]; (split; [exact B|]); (split; [apply (paid_less 0 0); [apply paid_refl|lia|lia]|intros _; apply paid_refl]).
  - assert (STOP : forall e : exn, bk b /\ paid (-1) 0 h b h b /\ ((forall l c fs, v = HRef l -> nth_error h l = Some (CObj c fs) -> simple_of E c = true) -> paid 0 0 h b h b)).
    { intros _. split; [exact B|]. split; [apply (paid_less 0 0); [apply paid_refl|lia|lia]|intros _; apply paid_refl]. }
    destruct v as [|z|z|s|l]; cbn [hdecode]; try (apply STOP; exact NPE). destruct (nth_error h l) as [[c fs|vs]|] eqn:Hl; try (apply STOP; exact NPE). destruct (find_class E c) as [cd|] eqn:Hc; [|apply STOP; exact NPE].
    pose proof (CP c cd Hc) as K. apply andb_true_iff in K. destruct K as [K1 K2].
    pose proof (stmts_paid E (hdecode E d) IH (factory E c) l (simple_of E) (fun c H => H) HG (-1) h b (nth_lt _ _ _ Hl) (List.length (c_dec cd)) (c_dec cd) h b 0 0 (le_n _) (Z.le_refl 0) K2 B (paid_refl h b)) as W.
    assert (W0 : simple_of E c = true -> let '(e, (h', b')) := hexec_dec (hdecode E d) (hnew E) (factory E c) l (c_dec cd) (h, b) in bk b' /\ match e with None => paid (0 + gain (c_dec cd)) (0 + width (c_dec cd)) h b h' b' | Some _ => paid 0 0 h b h' b' end).
    { intros S. unfold simple_of in S. rewrite Hc in S. exact (stmts_paid E (hdecode E d) IH (factory E c) l (fun _ => false) (fun c (H : false = true) => ltac:(discriminate H)) HG 0 h b (nth_lt _ _ _ Hl) (List.length (c_dec cd)) (c_dec cd) h b 0 0 (le_n _) (Z.le_refl 0) S B (paid_refl h b)). }
    destruct (hexec_dec (hdecode E d) (hnew E) (factory E c) l (c_dec cd) (h, b)) as [[e|] [h' b']]; destruct W as [B' W]; (split; [exact B'|]).
    + split; [exact W|]. intros S. apply W0. eapply S; eauto.
    + exists l, c, fs. split; [reflexivity|]. split; [exact Hl|]. pose proof (GW (c_dec cd)). pose proof (HG c) as G0. unfold gain_of in *. rewrite Hc in *. split; (eapply paid_less; [exact W|lia|lia]).
Qed.
