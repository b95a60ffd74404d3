(** (a + b)^p = a^p + b^p modulo p in a commutative ring, and the Frobenius map of
    the tower. *)
From Coq Require Import ZArith Znumtheory Zpow_facts Lia Ring Setoid Morphisms List.
From Verif Require Import ModArith SpecTower TowerRing.
Local Open Scope Z_scope.

(** ** Binomial coefficients *)
Fixpoint binom (n k : nat) : Z :=
  match n, k with
  | _, O => 1
  | O, S _ => 0
  | S n', S k' => binom n' k' + binom n' (S k')
  end.
Lemma binom_0 n : binom n 0 = 1. Proof. destruct n; reflexivity. Qed.
Lemma binom_big n : forall k, (n < k)%nat -> binom n k = 0.
Proof.
  induction n as [|n IH]; intros [|k] H; try lia; [reflexivity|]. cbn [binom]. rewrite !IH by lia. reflexivity.
Qed.
Lemma binom_n n : binom n n = 1.
Proof. induction n as [|n IH]; [reflexivity|]. cbn [binom]. rewrite IH, binom_big by lia. reflexivity. Qed.
Lemma binom_absorb n : forall k, Z.of_nat (S k) * binom (S n) (S k) = Z.of_nat (S n) * binom n k.
Proof.
  induction n as [|n IH]; intros k.
  - destruct k; [reflexivity|]. cbn [binom]. ring.
  - change (binom (S (S n)) (S k)) with (binom (S n) k + binom (S n) (S k)).
    destruct k as [|k].
    + rewrite binom_0. specialize (IH O). rewrite binom_0 in IH. nia.
    + pose proof (IH k) as H1. pose proof (IH (S k)) as H2.
      change (binom (S n) (S k)) with (binom n k + binom n (S k)) in *.
      replace (Z.of_nat (S (S k)) * (binom n k + binom n (S k) + binom (S n) (S (S k))))
        with (Z.of_nat (S (S k)) * (binom n k + binom n (S k)) + Z.of_nat (S (S k)) * binom (S n) (S (S k))) by ring.
      rewrite H2. rewrite !Nat2Z.inj_succ in *. unfold Z.succ in *. nia.
Qed.
Lemma binom_prime p k : prime (Z.of_nat p) -> (0 < k < p)%nat -> (Z.of_nat p | binom p k).
Proof.
  intros P H. destruct p as [|p]; [lia|]. destruct k as [|k]; [lia|].
  pose proof (binom_absorb p k) as E.
  assert (D : (Z.of_nat (S p) | Z.of_nat (S k) * binom (S p) (S k))) by (exists (binom p k); lia).
  apply prime_mult in D; [|exact P]. destruct D as [D|D]; [|exact D].
  apply Z.divide_pos_le in D; lia.
Qed.

Section Freshman.
Context {R : Type} {zero one : R} {add mul sub : R -> R -> R} {neg : R -> R}.
Hypothesis RT : ring_theory zero one add mul sub neg (@eq R).
Add Ring Rr : RT.
Variable inj : Z -> R.
Hypothesis inj_0 : inj 0 = zero.
Hypothesis inj_1 : inj 1 = one.
Hypothesis inj_add : forall x y, inj (x + y) = add (inj x) (inj y).
Hypothesis inj_mul : forall x y, inj (x * y) = mul (inj x) (inj y).
Notation pw := (@pw R one mul).

Fixpoint np (x : R) (n : nat) : R := match n with O => one | S n' => mul x (np x n') end.
Lemma pw_np x n : pw x (Z.of_nat n) = np x n.
Proof.
  induction n as [|n IH]; [reflexivity|]. rewrite Nat2Z.inj_succ, pw_succ, IH by lia. reflexivity.
Qed.
Fixpoint sum (f : nat -> R) (n : nat) : R := match n with O => zero | S n' => add (sum f n') (f n') end.
Lemma sum_ext f g n : (forall k, (k < n)%nat -> f k = g k) -> sum f n = sum g n.
Proof. induction n as [|n IH]; intros H; [reflexivity|]. cbn [sum]. rewrite IH, H by (auto; intros; apply H; lia). reflexivity. Qed.
Lemma sum_add f g n : add (sum f n) (sum g n) = sum (fun k => add (f k) (g k)) n.
Proof. induction n as [|n IH]; cbn [sum]; [ring|]. rewrite <- IH. ring. Qed.
Lemma sum_mul c f n : mul c (sum f n) = sum (fun k => mul c (f k)) n.
Proof. induction n as [|n IH]; cbn [sum]; [ring|]. rewrite <- IH. ring. Qed.
Lemma sum_first f n : sum f (S n) = add (f O) (sum (fun k => f (S k)) n).
Proof. induction n as [|n IH]; [cbn [sum]; ring|]. cbn [sum] in *. rewrite IH. ring. Qed.

Lemma binomial a b n : np (add a b) n = sum (fun k => mul (inj (binom n k)) (mul (np a k) (np b (n - k)))) (S n).
Proof.
  induction n as [|n IH].
  - cbn. rewrite inj_1. ring.
  - cbn [np]. rewrite IH.
    replace (mul (add a b) (sum (fun k => mul (inj (binom n k)) (mul (np a k) (np b (n - k)))) (S n)))
      with (add (mul a (sum (fun k => mul (inj (binom n k)) (mul (np a k) (np b (n - k)))) (S n)))
                (mul b (sum (fun k => mul (inj (binom n k)) (mul (np a k) (np b (n - k)))) (S n)))) by ring.
    rewrite !sum_mul.
    rewrite (sum_first (fun k => mul (inj (binom (S n) k)) _)).
    rewrite (sum_first (fun k => mul b _)).
    rewrite (sum_ext (fun k => mul (inj (binom (S n) (S k))) _)
      (fun k => add (mul a (mul (inj (binom n k)) (mul (np a k) (np b (n - k)))))
                    (mul (inj (binom n (S k))) (mul (np a (S k)) (np b (n - k)))))).
    2:{ intros k Hk. cbn [binom np]. rewrite inj_add. replace (S n - S k)%nat with (n - k)%nat by lia. ring. }
    rewrite <- sum_add. rewrite binom_0, binom_0. cbn [np]. rewrite !Nat.sub_0_r. cbn [np].
    assert (E : sum (fun k => mul (inj (binom n (S k))) (mul (mul a (np a k)) (np b (n - k)))) (S n)
      = sum (fun k => mul b (mul (inj (binom n (S k))) (mul (mul a (np a k)) (np b (n - S k))))) n).
    { cbn [sum]. rewrite (binom_big n (S n)) by lia. rewrite inj_0.
      rewrite (sum_ext (fun k => mul (inj (binom n (S k))) (mul (mul a (np a k)) (np b (n - k))))
        (fun k => mul b (mul (inj (binom n (S k))) (mul (mul a (np a k)) (np b (n - S k)))))); [ring|].
      intros k Hk. replace (n - k)%nat with (S (n - S k)) by lia. cbn [np]. ring. }
    rewrite E, inj_1. ring.
Qed.

Lemma freshman p a b : prime p -> exists c,
  pw (add a b) p = add (add (pw a p) (pw b p)) (mul (inj p) c).
Proof.
  intros P. pose proof (prime_ge_2 _ P). rewrite <- (Z2Nat.id p) in * by lia.
  set (n := Z.to_nat p) in *. clearbody n. rewrite !pw_np, binomial.
  destruct n as [|n]; [lia|].
  assert (G : forall m, (m <= n)%nat -> exists c,
     sum (fun k => mul (inj (binom (S n) (S k))) (mul (np a (S k)) (np b (S n - S k)))) m = mul (inj (Z.of_nat (S n))) c).
  { induction m as [|m IH]; intros Hm; [exists zero; cbn [sum]; ring|].
    destruct IH as [c Hc]; [lia|]. cbn [sum]. rewrite Hc.
    destruct (binom_prime (S n) (S m) P) as [q Hq]; [lia|]. rewrite Hq, inj_mul.
    exists (add c (mul (inj q) (mul (np a (S m)) (np b (S n - S m))))). ring. }
  destruct (G n) as [c Hc]; [lia|]. exists c. rewrite sum_first. cbn [sum]. rewrite Hc.
  rewrite Nat.sub_diag, Nat.sub_0_r, binom_n, binom_0, inj_1. cbn [np]. ring.
Qed.
End Freshman.

(** ** The Frobenius map of the tower *)
Add Ring F2r : F2_ring.

Lemma pw_proper {R} (one : R) (mul : R -> R -> R) (eqv : R -> R -> Prop) {EQ : Equivalence eqv}
  (MP : Proper (eqv ==> eqv ==> eqv) mul) x y n : eqv x y -> eqv (@pw R one mul x n) (@pw R one mul y n).
Proof.
  intros H. destruct (Z_lt_le_dec n 0) as [L|L]; [rewrite !pw_neg by exact L; reflexivity|].
  pattern n. apply natlike_ind; [reflexivity| |exact L].
  intros m Hm IH. rewrite !pw_succ by lia. apply MP; assumption.
Qed.

(** The shape of all Frobenius gadgets: conjugate-like scaling of the second
    coordinates and multiplication by constants. *)
Definition fr2 (k : Z) (x : F2) : F2 := let '(a, b) := x in (a, b * k).
Definition fr6 (k : Z) (g1 g2 : F2) (x : F6) : F6 :=
  let '(a, b, c) := x in (fr2 k a, mul2 (fr2 k b) g1, mul2 (fr2 k c) g2).
Definition scale6 (g : F2) (x : F6) : F6 := let '(a, b, c) := x in (mul2 a g, mul2 b g, mul2 c g).
Definition fr12 (k : Z) (g1 g2 g : F2) (x : F12) : F12 :=
  let '(a, b) := x in (fr6 k g1 g2 a, scale6 g (fr6 k g1 g2 b)).

Section Frob.
Variable p : Z.
Hypothesis P : prime p.
Hypothesis P4 : p mod 4 = 3.
Hypothesis P6 : p mod 6 = 1.
Variable xi : F2.
Add Ring F6r : (F6_ring xi).
Add Ring F12r : (F12_ring xi).
Notation pw2 := (@pw F2 one2 mul2).
Notation pw6 := (@pw F6 one6 (mul6 xi)).
Notation pw12 := (@pw F12 one12 (mul12 xi)).

Lemma fermat a : a ^ p ≡ a ⟨p⟩.
Proof.
  pose proof (prime_ge_2 _ P) as G.
  assert (H : forall n, 0 <= n -> n ^ p ≡ n ⟨p⟩).
  { intros n Hn. pattern n. apply natlike_ind; [rewrite Z.pow_0_l by lia; reflexivity| |exact Hn].
    clear n Hn. intros n Hn IH.
    assert (EP : forall x, @pw Z 1 Z.mul x p = x ^ p).
    { intros x. pattern p at 1 2. apply natlike_ind; [reflexivity| |lia].
      intros m Hm E. rewrite pw_succ, Z.pow_succ_r, E by lia. reflexivity. }
    destruct (freshman InitialRing.Zth (fun z => z) eq_refl eq_refl
      (fun _ _ => eq_refl) (fun _ _ => eq_refl) p n 1 P) as [c Hc].
    cbv beta in Hc. rewrite !EP in Hc. unfold Z.succ. rewrite Hc, Z.pow_1_l, IH by lia. unfold eqm. replace (n + 1 + p * c) with (n + 1 + c * p) by ring. apply Z_mod_plus_full. }
  rewrite <- (mod_eqm p a) at 2. rewrite <- (H (a mod p)) by (apply Z.mod_pos_bound; lia).
  unfold eqm. rewrite Zpower_mod by lia. symmetry. rewrite Zpower_mod, Zmod_mod by lia. reflexivity.
Qed.

Definition i2 (n : Z) : F2 := (n, 0).
Definition i6 (x : F2) : F6 := (x, zero2, zero2).
Definition i12 (x : F6) : F12 := (x, zero6).
Definition u2 : F2 := (0, 1).
Definition z12 : F12 := (zero6, one6).

Ltac c2 := unfold i2, u2, add2, sub2, neg2, mul2, zero2, one2; peq; ring.
Ltac c6 := unfold i6, add6, sub6, neg6, mul6, zero6, one6, v6; peq; try ring.
Lemma i2_add x y : i2 (x + y) = add2 (i2 x) (i2 y). Proof. c2. Qed.
Lemma i2_mul x y : i2 (x * y) = mul2 (i2 x) (i2 y). Proof. c2. Qed.
Lemma i6_add x y : i6 (add2 x y) = add6 (i6 x) (i6 y). Proof. c6. Qed.
Lemma i6_mul x y : i6 (mul2 x y) = mul6 xi (i6 x) (i6 y). Proof. c6. Qed.
Lemma i12_add x y : i12 (add6 x y) = add12 (i12 x) (i12 y).
Proof. unfold i12, add12. peq; ring. Qed.
Lemma i12_mul x y : i12 (mul6 xi x y) = mul12 xi (i12 x) (i12 y).
Proof. unfold i12, mul12. peq; ring. Qed.
Lemma pw_i6 x n : pw6 (i6 x) n = i6 (pw2 x n).
Proof.
  destruct (Z_lt_le_dec n 0) as [L|L]; [rewrite !pw_neg by exact L; reflexivity|].
  pattern n. apply natlike_ind; [reflexivity| |exact L].
  intros m Hm IH. rewrite !pw_succ, IH, i6_mul by lia. reflexivity.
Qed.
Lemma pw_i12 x n : pw12 (i12 x) n = i12 (pw6 x n).
Proof.
  destruct (Z_lt_le_dec n 0) as [L|L]; [rewrite !pw_neg by exact L; reflexivity|].
  pattern n. apply natlike_ind; [reflexivity| |exact L].
  intros m Hm IH. rewrite !pw_succ, IH, i12_mul by lia. reflexivity.
Qed.
Lemma pw_i2 x n : 0 <= n -> pw2 (i2 x) n = i2 (x ^ n).
Proof.
  intros L. pattern n. apply natlike_ind; [reflexivity| |exact L].
  intros m Hm IH. rewrite pw_succ, Z.pow_succ_r, IH, i2_mul by lia. reflexivity.
Qed.
Lemma p2_drop x c : eq2 p (add2 x (mul2 (i2 p) c)) x.
Proof.
  destruct x, c. cbn. apply eq2_intro; cbn.
  - unfold eqm. replace (z + (p * z1 - 0)) with (z + z1 * p) by ring. apply Z_mod_plus_full.
  - unfold eqm. replace (z0 + (p * z2 + 0)) with (z0 + z2 * p) by ring. apply Z_mod_plus_full.
Qed.
Lemma p6_drop x c : eq6 p (add6 x (mul6 xi (i6 (i2 p)) c)) x.
Proof.
  destruct x as [[x0 x1] x2], c as [[d0 d1] d2]. unfold i6, mul6, add6. apply eq6_intro.
  - etransitivity; [|apply (p2_drop x0 d0)]. apply eq_subrelation; [typeclasses eauto|]. unfold zero2. ring_simplify. destruct x0, d0, xi, d2, d1. unfold i2, add2, mul2. peq; ring.
  - etransitivity; [|apply (p2_drop x1 d1)]. apply eq_subrelation; [typeclasses eauto|]. destruct x1, d0, xi, d2, d1. unfold i2, zero2, add2, mul2. peq; ring.
  - etransitivity; [|apply (p2_drop x2 d2)]. apply eq_subrelation; [typeclasses eauto|]. destruct x2, d0, xi, d2, d1. unfold i2, zero2, add2, mul2. peq; ring.
Qed.
Lemma p12_drop x c : eq12 p (add12 x (mul12 xi (i12 (i6 (i2 p))) c)) x.
Proof.
  destruct x as [x0 x1], c as [c0 c1]. unfold i12, mul12, add12. split; cbn [fst snd].
  - etransitivity; [|apply (p6_drop x0 c0)]. apply eq_subrelation; [typeclasses eauto|]. ring.
  - etransitivity; [|apply (p6_drop x1 c1)]. apply eq_subrelation; [typeclasses eauto|]. ring.
Qed.
Lemma freshman2 a b : eq2 p (pw2 (add2 a b) p) (add2 (pw2 a p) (pw2 b p)).
Proof.
  destruct (freshman F2_ring i2 eq_refl eq_refl i2_add i2_mul p a b P) as [c ->]. apply p2_drop.
Qed.
Lemma freshman6 a b : eq6 p (pw6 (add6 a b) p) (add6 (pw6 a p) (pw6 b p)).
Proof.
  assert (H1 : forall x y, i6 (i2 (x + y)) = add6 (i6 (i2 x)) (i6 (i2 y))) by (intros; rewrite i2_add; apply i6_add).
  assert (H2 : forall x y, i6 (i2 (x * y)) = mul6 xi (i6 (i2 x)) (i6 (i2 y))) by (intros; rewrite i2_mul; apply i6_mul).
  destruct (freshman (F6_ring xi) (fun n => i6 (i2 n)) eq_refl eq_refl H1 H2 p a b P) as [c ->]. apply p6_drop.
Qed.
Lemma freshman12 a b : eq12 p (pw12 (add12 a b) p) (add12 (pw12 a p) (pw12 b p)).
Proof.
  assert (H1 : forall x y, i12 (i6 (i2 (x + y))) = add12 (i12 (i6 (i2 x))) (i12 (i6 (i2 y))))
    by (intros; rewrite i2_add, i6_add; apply i12_add).
  assert (H2 : forall x y, i12 (i6 (i2 (x * y))) = mul12 xi (i12 (i6 (i2 x))) (i12 (i6 (i2 y))))
    by (intros; rewrite i2_mul, i6_mul; apply i12_mul).
  destruct (freshman (F12_ring xi) (fun n => i12 (i6 (i2 n))) eq_refl eq_refl H1 H2 p a b P) as [c ->]. apply p12_drop.
Qed.

Lemma frob2 x : eq2 p (pw2 x p) (conj2 x).
Proof.
  pose proof (prime_ge_2 _ P) as G.
  destruct x as [a b]. replace (a, b) with (add2 (i2 a) (mul2 (i2 b) u2)) at 1 by c2.
  rewrite freshman2, (pw_mul_base F2_ring), !pw_i2 by lia.
  assert (U : pw2 u2 p = neg2 u2).
  { assert (D : 0 <= p / 4) by (apply Z.div_pos; lia).
    pose proof (Z.div_mod p 4 ltac:(lia)) as E. rewrite P4 in E. rewrite E.
    rewrite (pw_add F2_ring), (pw_mul F2_ring) by lia.
    replace (pw2 u2 4) with one2 by reflexivity. rewrite (pw_one F2_ring). reflexivity. }
  rewrite U. cbn. apply eq2_intro; rewrite !fermat; apply eqm_eq; ring.
Qed.

Definition g1 : F2 := pw2 xi ((p - 1) / 6).
Lemma p6 : p = 6 * ((p - 1) / 6) + 1 /\ 0 <= (p - 1) / 6.
Proof.
  pose proof (prime_ge_2 _ P) as G.
  pose proof (Z.div_mod p 6 ltac:(lia)) as E. rewrite P6 in E.
  replace ((p - 1) / 6) with (p / 6); [split; [lia|apply Z.div_pos; lia]|].
  rewrite E at 2. replace (6 * (p / 6) + 1 - 1) with (p / 6 * 6) by ring. rewrite Z.div_mul; lia.
Qed.
Lemma v_cubed : pw6 v6 3 = i6 xi.
Proof.
  change 3 with (2 + 1). rewrite (pw_add (F6_ring xi)), (pw_2 (F6_ring xi)), (pw_1 (F6_ring xi)) by lia.
  c6.
Qed.
Lemma v_p : pw6 v6 p = mul6 xi v6 (i6 (mul2 g1 g1)).
Proof.
  destruct p6 as [E L]. set (m := (p - 1) / 6) in *.
  rewrite E. replace (6 * m + 1) with (3 * (2 * m) + 1) by ring.
  rewrite (pw_add (F6_ring xi)), (pw_mul (F6_ring xi)), v_cubed, pw_i6, (pw_1 (F6_ring xi)) by lia.
  replace (2 * m) with (m + m) by ring. rewrite (pw_add F2_ring) by lia. unfold g1. fold m. rewrite !i6_mul. ring.
Qed.
Lemma z_p : pw12 z12 p = mul12 xi z12 (i12 (i6 g1)).
Proof.
  destruct p6 as [E L]. unfold g1. set (m := (p - 1) / 6) in *.
  assert (Z2 : mul12 xi z12 z12 = i12 v6).
  { unfold z12, i12, mul12, v6. peq; ring. }
  rewrite E. replace (6 * m + 1) with (2 * (3 * m) + 1) by ring.
  rewrite (pw_add (F12_ring xi)), (pw_mul (F12_ring xi)), (pw_2 (F12_ring xi)), Z2, pw_i12, (pw_1 (F12_ring xi)) by lia.
  rewrite (pw_mul (F6_ring xi)), v_cubed, pw_i6 by lia. ring.
Qed.

Lemma frob6 x : eq6 p (pw6 x p) (fr6 (-1) (mul2 g1 g1) (mul2 (mul2 g1 g1) (mul2 g1 g1)) x).
Proof.
  destruct x as [[a b] c].
  replace (a, b, c) with (add6 (i6 a) (add6 (mul6 xi (i6 b) v6) (mul6 xi (i6 c) (mul6 xi v6 v6)))) at 1 by c6.
  rewrite !freshman6, !(pw_mul_base (F6_ring xi)), !pw_i6, v_p. unfold fr6.
  set (g := mul2 g1 g1).
  replace (add6 (i6 (pw2 a p)) (add6 (mul6 xi (i6 (pw2 b p)) (mul6 xi v6 (i6 g)))
      (mul6 xi (i6 (pw2 c p)) (mul6 xi (mul6 xi v6 (i6 g)) (mul6 xi v6 (i6 g))))))
    with (pw2 a p, mul2 (pw2 b p) g, mul2 (pw2 c p) (mul2 g g)) by (c6).
  assert (C : forall x, fr2 (-1) x = conj2 x) by (intros [? ?]; unfold fr2, conj2; peq; ring).
  rewrite !C. apply eq6_intro; rewrite frob2; reflexivity.
Qed.
Lemma frob12 x : eq12 p (pw12 x p) (fr12 (-1) (mul2 g1 g1) (mul2 (mul2 g1 g1) (mul2 g1 g1)) g1 x).
Proof.
  destruct x as [a b].
  replace (a, b) with (add12 (i12 a) (mul12 xi (i12 b) z12)) at 1 by (unfold i12, z12, mul12, add12; peq; ring).
  rewrite freshman12, (pw_mul_base (F12_ring xi)), !pw_i12, z_p.
  replace (add12 (i12 (pw6 a p)) (mul12 xi (i12 (pw6 b p)) (mul12 xi z12 (i12 (i6 g1)))))
    with (pw6 a p, mul6 xi (pw6 b p) (i6 g1)).
  2:{ unfold i12, z12, mul12, add12. peq; ring. }
  unfold fr12. split; cbn [fst snd]; [apply frob6|]. rewrite frob6.
  apply eq_subrelation; [typeclasses eauto|]. destruct (fr6 _ _ _ b) as [[? ?] ?]. unfold scale6. c6.
Qed.

(** Iterates, described by tables of constants. *)
Section Iter.
Variables (kt : nat -> Z) (t1 t2 tz : nat -> F2).
Hypothesis kt0 : kt 0 ≡ 1 ⟨p⟩.
Hypothesis t10 : eq2 p (t1 0%nat) one2.
Hypothesis t20 : eq2 p (t2 0%nat) one2.
Hypothesis tz0 : eq2 p (tz 0%nat) one2.
Hypothesis ktS : forall k, kt (S k) ≡ - kt k ⟨p⟩.
Hypothesis t1S : forall k, eq2 p (t1 (S k)) (mul2 (conj2 (t1 k)) (mul2 g1 g1)).
Hypothesis t2S : forall k, eq2 p (t2 (S k)) (mul2 (conj2 (t2 k)) (mul2 (mul2 g1 g1) (mul2 g1 g1))).
Hypothesis tzS : forall k, eq2 p (tz (S k)) (mul2 (conj2 (tz k)) g1).

Lemma fr2_proper k k' x : k ≡ k' ⟨p⟩ -> eq2 p (fr2 k x) (fr2 k' x).
Proof. intros H. destruct x. unfold fr2. apply eq2_intro; [reflexivity|]. rewrite H. reflexivity. Qed.
Lemma fr6_proper k k' g g' h h' x : k ≡ k' ⟨p⟩ -> eq2 p g g' -> eq2 p h h' -> eq6 p (fr6 k g h x) (fr6 k' g' h' x).
Proof.
  intros H H1 H2. destruct x as [[a b] c]. unfold fr6.
  apply eq6_intro; rewrite ?(fr2_proper k k') by exact H; rewrite ?H1, ?H2; reflexivity.
Qed.
Lemma scale6_proper g g' x x' : eq2 p g g' -> eq6 p x x' -> eq6 p (scale6 g x) (scale6 g' x').
Proof.
  intros H. destruct x as [[a b] c], x' as [[a' b'] c']. intros (H1 & H2 & H3). unfold scale6.
  apply eq6_intro; rewrite ?H1, ?H2, ?H3, H; reflexivity.
Qed.
Lemma fr12_proper k k' g g' h h' z z' x : k ≡ k' ⟨p⟩ -> eq2 p g g' -> eq2 p h h' -> eq2 p z z' ->
  eq12 p (fr12 k g h z x) (fr12 k' g' h' z' x).
Proof.
  intros H H1 H2 H3. destruct x as [a b]. unfold fr12. split; cbn [fst snd].
  - apply fr6_proper; auto.
  - apply scale6_proper; [auto|]. apply fr6_proper; auto.
Qed.
Lemma fr2_1 x : fr2 1 x = x. Proof. destruct x. unfold fr2. peq; ring. Qed.
Lemma fr2_fr2 k x : fr2 (-1) (fr2 k x) = fr2 (- k) x.
Proof. destruct x. unfold fr2. peq; ring. Qed.
Lemma fr2_conj x : fr2 (-1) x = conj2 x. Proof. destruct x; unfold fr2, conj2. peq; ring. Qed.
Lemma conj2_mul x y : conj2 (mul2 x y) = mul2 (conj2 x) (conj2 y).
Proof. destruct x, y; unfold conj2, mul2. peq; ring. Qed.
Lemma pow_pos k : 0 <= p ^ Z.of_nat k.
Proof. pose proof (prime_ge_2 _ P). apply Z.pow_nonneg. lia. Qed.
Lemma pow_S k : p ^ Z.of_nat (S k) = p ^ Z.of_nat k * p.
Proof. rewrite Nat2Z.inj_succ, Z.pow_succ_r by lia. ring. Qed.
Lemma frob2_iter x k : eq2 p (pw2 x (p ^ Z.of_nat k)) (fr2 (kt k) x).
Proof.
  pose proof (prime_ge_2 _ P). induction k as [|k IH].
  - cbn [Z.of_nat]. rewrite Z.pow_0_r, (pw_1 F2_ring), (fr2_proper _ _ x kt0), fr2_1. reflexivity.
  - rewrite pow_S, (pw_mul F2_ring) by (try lia; apply pow_pos). rewrite frob2, IH, <- fr2_conj, fr2_fr2.
    apply fr2_proper. symmetry. apply ktS.
Qed.
Lemma fr6_step k g h g' h' x :
  fr6 (-1) g' h' (fr6 k g h x) = fr6 (- k) (mul2 (conj2 g) g') (mul2 (conj2 h) h') x.
Proof.
  destruct x as [[a b] c]. unfold fr6. rewrite !fr2_conj, !conj2_mul, <- !fr2_conj, !fr2_fr2. peq; ring.
Qed.
Lemma frob6_iter x k : eq6 p (pw6 x (p ^ Z.of_nat k)) (fr6 (kt k) (t1 k) (t2 k) x).
Proof.
  pose proof (prime_ge_2 _ P). induction k as [|k IH].
  - cbn [Z.of_nat]. rewrite Z.pow_0_r, (pw_1 (F6_ring xi)).
    rewrite (fr6_proper _ _ _ _ _ _ x kt0 t10 t20). destruct x as [[a b] c]. unfold fr6. rewrite !fr2_1.
    apply eq_subrelation; [typeclasses eauto|]. peq; ring.
  - rewrite pow_S, (pw_mul (F6_ring xi)) by (try lia; apply pow_pos).
    rewrite (pw_proper one6 (mul6 xi) (eq6 p) _ _ _ p IH), frob6, fr6_step.
    apply fr6_proper; symmetry; auto.
Qed.
Lemma fr12_step k g h z g' h' z' x :
  fr12 (-1) g' h' z' (fr12 k g h z x) = fr12 (- k) (mul2 (conj2 g) g') (mul2 (conj2 h) h') (mul2 (conj2 z) z') x.
Proof.
  destruct x as [a b]. unfold fr12. rewrite fr6_step. apply pair_eq; [reflexivity|].
  rewrite <- fr6_step. destruct (fr6 k g h b) as [[b0 b1] b2]. unfold fr6, scale6.
  rewrite !fr2_conj, !conj2_mul. peq; ring.
Qed.
Lemma frob12_iter x k : eq12 p (pw12 x (p ^ Z.of_nat k)) (fr12 (kt k) (t1 k) (t2 k) (tz k) x).
Proof.
  pose proof (prime_ge_2 _ P). induction k as [|k IH].
  - cbn [Z.of_nat]. rewrite Z.pow_0_r, (pw_1 (F12_ring xi)).
    rewrite (fr12_proper _ _ _ _ _ _ _ _ x kt0 t10 t20 tz0). destruct x as [[[a b] c] [[d e] f]].
    unfold fr12, fr6, scale6. rewrite !fr2_1. apply eq_subrelation; [typeclasses eauto|]. peq; ring.
  - rewrite pow_S, (pw_mul (F12_ring xi)) by (try lia; apply pow_pos).
    rewrite (pw_proper one12 (mul12 xi) (eq12 p) _ _ _ p IH), frob12, fr12_step.
    apply fr12_proper; symmetry; auto.
Qed.
End Iter.
End Frob.
