(* How far apart two flipped bits can be: the period of the shift registers. *)
From Coq Require Import ZArith List Bool Lia ZifyBool Znumtheory.
From Verif.Spec Require Import Bytes Crc.
From Verif.Proofs Require Import BytesFacts BitMapFacts CrcFacts.
Import ListNotations.
Open Scope Z_scope.
Ltac Zify.zify_post_hook ::= Z.div_mod_to_equations.

Lemma order16 : no_return poly16 (h poly16 1) (Z.to_nat 32766) (h poly16 1) = true.
Proof. vm_compute. reflexivity. Qed.
Theorem period16 d : (0 < d)%nat -> Z.of_nat d < 32767 -> iter poly16 d (h poly16 1) <> h poly16 1.
Proof. intros. apply (no_return_ok _ _ _ _ order16). lia. Qed.
Lemma returns16 : iter poly16 (Z.to_nat 32767) (h poly16 1) = h poly16 1.
Proof. vm_compute. reflexivity. Qed.

(* ---- linear maps on 32-bit registers as lists of images ---- *)
Definition basis : list Z := map (fun i => 2 ^ Z.of_nat i) (seq 0 32).
Fixpoint mapply (m : list Z) (v : Z) : Z :=
  match m with [] => 0 | x :: r => Z.lxor (if Z.odd v then x else 0) (mapply r (v / 2)) end.
Definition represents (m : list Z) (f : Z -> Z) : Prop := forall v, 0 <= v < 2 ^ 32 -> mapply m v = f v.
Definition linear (f : Z -> Z) : Prop := f 0 = 0 /\ forall a b, f (Z.lxor a b) = Z.lxor (f a) (f b).
Lemma apply_pow f k n v : linear f -> 0 <= v < 2 ^ Z.of_nat n -> mapply (map (fun i => f (2 ^ Z.of_nat i)) (seq k n)) v = f (v * 2 ^ Z.of_nat k).
Proof.
  intros [F0 F]. revert k v; induction n; intros k v Hv; [cbn in Hv; replace v with 0 by lia; cbn [seq map mapply]; rewrite Z.mul_0_l; auto|].
  cbn [seq map mapply]. rewrite Nat2Z.inj_succ, Z.pow_succ_r in Hv by lia. rewrite IHn by lia. rewrite Nat2Z.inj_succ, Z.pow_succ_r by lia.
  transitivity (Z.lxor (f ((v mod 2) * 2 ^ Z.of_nat k)) (f (v / 2 * (2 * 2 ^ Z.of_nat k)))).
  - f_equal. rewrite Zmod_odd. destruct (Z.odd v); [rewrite Z.mul_1_l|rewrite Z.mul_0_l]; auto.
  - rewrite <- F. f_equal. replace (v / 2 * (2 * 2 ^ Z.of_nat k)) with ((2 * (v / 2)) * 2 ^ Z.of_nat k) by ring.
    rewrite <- !Z.shiftl_mul_pow2 by lia. rewrite <- Z.shiftl_lxor. f_equal. rewrite (Z.div_mod v 2) at 3 by lia. rewrite Z.add_comm, Zmod_odd.
    destruct (Z.odd v); [exact (eq_sym (b2z_lxor true (v / 2)))|exact (eq_sym (b2z_lxor false (v / 2)))].
Qed.
Lemma represents_basis f : linear f -> represents (map f basis) f.
Proof. intros Hf v Hv. unfold basis. rewrite map_map. rewrite (apply_pow f 0 32 v Hf Hv). f_equal. cbn [Z.of_nat]. change (2 ^ 0) with 1. lia. Qed.
Lemma linear_h p : linear (h p).
Proof. split; [reflexivity|apply h_lxor]. Qed.
Lemma linear_iter p n : linear (iter p n).
Proof. split; [apply iter_zero|apply iter_lxor]. Qed.
Definition mul (a b : list Z) : list Z := map (mapply a) b.
Lemma map_basis_ext (f g : Z -> Z) : (forall v, 0 <= v < 2 ^ 32 -> f v = g v) -> map f basis = map g basis.
Proof. intros E. apply map_ext_in. intros x Hx. apply E. apply in_map_iff in Hx. destruct Hx as (i & <- & Hi). apply in_seq in Hi. split; [apply Z.pow_nonneg; lia|apply Z.pow_lt_mono_r; lia]. Qed.
Lemma mul_ok p n m : 0 <= p < 2 ^ 32 -> mul (map (iter p n) basis) (map (iter p m) basis) = map (iter p (m + n)) basis.
Proof.
  intros Hp. unfold mul. rewrite map_map. apply map_basis_ext. intros v Hv. rewrite (represents_basis (iter p n) (linear_iter p n)) by (apply iter_range; auto; lia). symmetry. apply iter_add.
Qed.
Fixpoint mpow (m1 : list Z) (k : positive) : list Z :=
  match k with
  | xH => m1
  | xO j => let a := mpow m1 j in mul a a
  | xI j => let a := mpow m1 j in mul m1 (mul a a)
  end.
Lemma mpow_ok p k : 0 <= p < 2 ^ 32 -> mpow (map (h p) basis) k = map (iter p (Pos.to_nat k)) basis.
Proof.
  intros Hp. assert (E : map (h p) basis = map (iter p 1) basis) by reflexivity. induction k as [j IH|j IH|]; cbn [mpow]; cbv zeta.
  - rewrite IH, mul_ok, E, mul_ok by exact Hp. f_equal. f_equal. lia.
  - rewrite IH, mul_ok by exact Hp. f_equal. f_equal. lia.
  - exact E.
Qed.
Lemma iter_pow p k v : 0 <= p < 2 ^ 32 -> 0 <= v < 2 ^ 32 -> iter p (Pos.to_nat k) v = mapply (mpow (map (h p) basis) k) v.
Proof. intros Hp Hv. rewrite mpow_ok by exact Hp. symmetry. apply represents_basis; auto. apply linear_iter. Qed.

Definition e32 : Z := h poly32 1.
Lemma e32_range : 0 <= e32 < 2 ^ 32. Proof. vm_compute. split; congruence. Qed.
Lemma p32_range : 0 <= poly32 < 2 ^ 32. Proof. vm_compute. split; congruence. Qed.
Notation full := 4294967295.
(* ---- the returns of an orbit are the multiples of their gcd ---- *)
Section Orbit.
  Variables (p e : Z).
  Definition back (n : nat) : Prop := iter p n e = e.
  Lemma back_mul n k : back n -> back (k * n).
  Proof. unfold back. intros H. induction k; [reflexivity|]. cbn [Nat.mul]. rewrite iter_add, H. exact IHk. Qed.
  Lemma back_sub n m : back n -> back (n + m) -> back m.
  Proof. unfold back. intros H E. rewrite iter_add, H in E. exact E. Qed.
  Lemma back_mod n m : m <> 0%nat -> back n -> back m -> back (n mod m).
  Proof.
    intros Hm Hn Hb. apply (back_sub (n / m * m)); [apply back_mul; auto|]. rewrite (Nat.mul_comm (n / m)). rewrite <- Nat.div_mod by exact Hm. exact Hn.
  Qed.
  Lemma back_gcd m : forall n, back n -> back m -> back (Nat.gcd m n).
  Proof.
    induction m as [m IH] using (well_founded_induction Wf_nat.lt_wf). intros n Hn Hm. destruct m as [|m]; [exact Hn|].
    change (back (Nat.gcd (n mod S m) (S m))). apply IH; auto; [apply Nat.mod_upper_bound; lia|]. apply back_mod; auto.
  Qed.
End Orbit.

(* ---- divisors of 2^32 - 1 ---- *)
Lemma only_trivial q (s : nat) : 1 < q -> q < Z.of_nat s * Z.of_nat s -> forallb (fun a => negb (q mod Z.of_nat a =? 0)) (seq 2 (s - 1)) = true -> forall g, 0 <= g -> (g | q) -> g = 1 \/ g = q.
Proof.
  intros Hq Hs A g Hg [c E]. rewrite forallb_forall in A.
  assert (N : forall a b, 1 < a -> a <= Z.of_nat s -> q = b * a -> False).
  { intros a b H1 H2 H3. specialize (A (Z.to_nat a) ltac:(apply in_seq; lia)). rewrite Z2Nat.id in A by lia. rewrite H3, Z.mod_mul in A by lia. discriminate. }
  assert (0 < g) by (destruct (Z.eq_dec g 0); [subst; lia|lia]). assert (0 < c) by (destruct (Z.le_gt_cases c 0); [pose proof (Z.mul_nonpos_nonneg c g); lia|lia]). destruct (Z.eq_dec g 1); [auto|]. destruct (Z.eq_dec c 1); [right; lia|]. exfalso.
  destruct (Z.le_gt_cases g (Z.of_nat s)); [apply (N g c); auto; lia|]. apply (N c g); [lia| |lia]. destruct (Z.le_gt_cases c (Z.of_nat s)) as [|K]; [assumption|]. pose proof (Z.mul_lt_mono_nonneg (Z.of_nat s) c (Z.of_nat s) g). lia.
Qed.
Definition factors : list Z := [3; 5; 17; 257; 65537].
Lemma coprime_or_divides q k : In q factors -> Z.gcd k q = 1 \/ (q | k).
Proof.
  intros Hq. assert (T : Z.gcd k q = 1 \/ Z.gcd k q = q).
  { unfold factors in Hq. cbn [In] in Hq.
    destruct Hq as [<-|[<-|[<-|[<-|[<-|[]]]]]];
      [apply (only_trivial 3 2)|apply (only_trivial 5 3)|apply (only_trivial 17 5)|apply (only_trivial 257 17)|apply (only_trivial 65537 257)];
      try lia; try reflexivity; auto using Z.gcd_nonneg, Z.gcd_divide_r. }
  destruct T as [T|T]; [left; exact T|right]. rewrite <- T. apply Z.gcd_divide_l.
Qed.
Lemma has_factor k : 1 < k -> (k | full) -> exists q, In q factors /\ (q | k).
Proof.
  intros Hk D.
  destruct (coprime_or_divides 3 k) as [G1|]; [cbn; auto| |exists 3; cbn; auto].
  destruct (coprime_or_divides 5 k) as [G2|]; [cbn; auto| |exists 5; cbn; auto].
  destruct (coprime_or_divides 17 k) as [G3|]; [cbn; auto| |exists 17; cbn; auto].
  destruct (coprime_or_divides 257 k) as [G4|]; [cbn; auto 6| |exists 257; cbn; auto 6].
  destruct (coprime_or_divides 65537 k) as [G5|]; [cbn; auto 7| |exists 65537; cbn; auto 7].
  exfalso. assert (G : Z.gcd k full = 1).
  { apply Zgcd_1_rel_prime in G1, G2, G3, G4, G5. apply Zgcd_1_rel_prime. change full with (3 * (5 * (17 * (257 * 65537)))).
    repeat (apply rel_prime_mult; [assumption|]). assumption. }
  apply Z.divide_gcd_iff in D; [|lia]. lia.
Qed.
Lemma period_of p e (n : positive) : back p e (Pos.to_nat n) -> (forall k, 1 < k -> (k | Zpos n) -> exists q, In q factors /\ (q | k)) ->
  (forall q j, In q factors -> Zpos n = q * Zpos j -> ~ back p e (Pos.to_nat j)) -> forall d, (0 < d)%nat -> Z.of_nat d < Zpos n -> ~ back p e d.
Proof.
  intros Bf HF HN d Hd Hf B. pose proof (back_gcd p e d _ Bf B) as Bg. set (g := Nat.gcd d (Pos.to_nat n)) in *.
  assert (Dg : (Nat.divide g (Pos.to_nat n))) by apply Nat.gcd_divide_r. destruct Dg as [k Ek].
  assert (Lg : (g <= d)%nat) by (apply Nat.divide_pos_le; [lia|apply Nat.gcd_divide_l]).
  assert (Ek' : Zpos n = Z.of_nat k * Z.of_nat g) by lia.
  assert (Hk : 1 < Z.of_nat k) by (destruct (Z.le_gt_cases (Z.of_nat k) 1); [assert (Z.of_nat k = 0 \/ Z.of_nat k = 1) as [Z0|Z0] by lia; rewrite Z0 in Ek'; lia|assumption]).
  destruct (HF (Z.of_nat k) Hk) as (q & Hq & [c Ec]); [exists (Z.of_nat g); lia|].
  assert (Pq : 0 < q) by (unfold factors in Hq; cbn [In] in Hq; lia).
  assert (Hc : 0 < c) by (destruct (Z.le_gt_cases c 0); [pose proof (Z.mul_nonpos_nonneg c q); lia|lia]).
  assert (Pg : 0 < Z.of_nat g) by (destruct (Z.eq_dec (Z.of_nat g) 0) as [Z0|]; [rewrite Z0 in Ek'; lia|lia]).
  apply (HN q (Z.to_pos (c * Z.of_nat g)) Hq).
  - rewrite Z2Pos.id by (apply Z.mul_pos_pos; lia). rewrite Ek', Ec. ring.
  - replace (Pos.to_nat (Z.to_pos (c * Z.of_nat g))) with (Z.to_nat c * g)%nat; [apply back_mul; exact Bg|]. apply Nat2Z.inj.
    rewrite Nat2Z.inj_mul, Z2Nat.id, positive_nat_Z, Z2Pos.id by (try apply Z.mul_pos_pos; lia). reflexivity.
Qed.
Definition full_p : positive := 4294967295.
Definition quotients : list (Z * positive) := [(3, 1431655765%positive); (5, 858993459%positive); (17, 252645135%positive); (257, 16711935%positive); (65537, 65535%positive)].
Lemma back_iff k : back poly32 e32 (Pos.to_nat k) <-> (mapply (mpow (map (h poly32) basis) k) e32 =? e32) = true.
Proof. unfold back. rewrite iter_pow by (try exact p32_range; exact e32_range). apply iff_sym, Z.eqb_eq. Qed.
Lemma quotients_ok : forallb (fun qj => (Z.pos full_p =? fst qj * Z.pos (snd qj)) && negb (mapply (mpow (map (h poly32) basis) (snd qj)) e32 =? e32)) quotients = true.
Proof. vm_compute. reflexivity. Qed.
Lemma full_back : (mapply (mpow (map (h poly32) basis) full_p) e32 =? e32) = true.
Proof. vm_compute. reflexivity. Qed.
Theorem period32 d : (0 < d)%nat -> Z.of_nat d < 4294967295 -> iter poly32 d e32 <> e32.
Proof.
  intros Hd Hf. apply (period_of poly32 e32 full_p); auto.
  - apply back_iff. exact full_back.
  - exact has_factor.
  - intros q j Hq Ej B. apply back_iff in B. pose proof quotients_ok as Q. rewrite forallb_forall in Q.
    assert (In (q, j) quotients).
    { assert (U : forall j', Z.pos full_p = q * Z.pos j' -> j = j').
      { intros j' E. rewrite Ej in E. assert (q <> 0) by (intros ->; discriminate). apply Z.mul_reg_l in E; auto. inversion E; auto. }
      unfold factors in Hq. cbn [In] in Hq. unfold quotients. cbn [In].
      destruct Hq as [<-|[<-|[<-|[<-|[<-|[]]]]]]; [left|right; left|right; right; left|do 3 right; left|do 4 right; left];
        f_equal; symmetry; apply U; reflexivity. }
    apply Q in H. cbn [fst snd] in H. rewrite B, andb_false_r in H. discriminate.
Qed.
