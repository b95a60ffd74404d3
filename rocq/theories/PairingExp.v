(** Powers in F_p12 used by the final exponentiations. *)
From Coq Require Import ZArith Znumtheory Lia Ring Setoid Morphisms.
From Verif Require Import ModArith Moduli SpecTower TowerRing Frobenius Cyclotomic PairingConsts PairingChip PairingFacts.
Local Open Scope Z_scope.

Section Six.
Variable p : Z.
Hypothesis P : prime p.
Hypothesis P4 : p mod 4 = 3.
Hypothesis P6 : p mod 6 = 1.
Variable xi : F2.
Add Ring F2r : F2_ring.
Add Ring F12r : (F12_ring xi).
Variable zeta : Z.
Hypothesis zeta_g : eq2 p (mul2 (conj2 (g1 p xi)) (g1 p xi)) (zeta, 0).
Hypothesis zeta_6 : zeta * zeta ≡ zeta - 1 ⟨p⟩.
Notation pow := (pow12 xi).
Notation mul := (mul12 xi).
Notation "x == y" := (eq12 p x y) (at level 70).
Ltac triv := apply eq_subrelation; [typeclasses eauto|]; ring.

Lemma pow_mul6 x m n : 0 <= m -> 0 <= n -> pow x (m * n) = pow (pow x m) n.
Proof. rewrite !pow12_pw. apply (pw_mul (F12_ring xi)). Qed.
Lemma p_pos6 k : 0 <= k -> 1 <= p ^ k.
Proof. intros. pose proof (prime_ge_2 _ P). assert (0 < p ^ k) by (apply Z.pow_pos_nonneg; lia). lia. Qed.

Lemma pow_p6 x : pow x (p ^ 6) == conj12 x.
Proof.
  pose proof (p_pos6 2 ltac:(lia)). pose proof (p_pos6 4 ltac:(lia)).
  replace (p ^ 6) with (p ^ 4 * p ^ 2) by ring. rewrite pow_mul6 by lia. rewrite !pow12_pw.
  rewrite (pow_p2 p P P4 P6 xi zeta zeta_g zeta_6).
  unfold phi2. rewrite (dil_proper p _ _ _ _ _ _ _ _ (pow_p4 p P P4 P6 xi zeta zeta_g zeta_6 x)).
  destruct x as [[[x0 x2] x4] [[x1 x3] x5]]. unfold phi4, dil, conj12, neg6.
  assert (G : forall a b c y y', a * b ≡ c ⟨p⟩ -> y' = mul2 (c, 0) y -> eq2 p (mul2 (a, 0) (mul2 (b, 0) y)) y').
  { intros a b c y y' K ->. replace (mul2 (a, 0) (mul2 (b, 0) y)) with (mul2 (a * b, 0) y).
    - apply mul2_proper; [apply c_eq2, K|reflexivity].
    - destruct y. cbn [mul2]. peq; ring. }
  apply eq12_of6; [eapply (G _ _ 1)|eapply (G _ _ (-1))|eapply (G _ _ 1)|eapply (G _ _ (-1))|eapply (G _ _ 1)|eapply (G _ _ (-1))].
  all: try (change (1, 0) with one2; ring).
  all: try match goal with |- neg2 ?x = _ => destruct x; cbn [mul2 neg2]; peq; ring end.
  - reflexivity.
  - replace (zeta * (zeta - 1)) with (zeta * zeta - zeta) by ring. rewrite zeta_6. apply eqm_eq. ring.
  - replace ((zeta - 1) * - zeta) with (zeta - zeta * zeta) by ring. rewrite zeta_6. apply eqm_eq. ring.
  - reflexivity.
  - replace (- zeta * (zeta - 1)) with (zeta - zeta * zeta) by ring. rewrite zeta_6. apply eqm_eq. ring.
  - replace ((1 - zeta) * - zeta) with (zeta * zeta - zeta) by ring. rewrite zeta_6. apply eqm_eq. ring.
Qed.
End Six.

Set Default Proof Using "All".
Section Exp.
Variable p : Z.
Hypothesis P : prime p.
Variable xi : F2.
Add Ring F2r' : F2_ring.
Add Ring F12r' : (F12_ring xi).
Notation pow := (pow12 xi).
Notation mul := (mul12 xi).
Notation "x == y" := (eq12 p x y) (at level 70).
Ltac triv := apply eq_subrelation; [typeclasses eauto|]; ring.
Hypothesis pow_p6 : forall x, pow x (p ^ 6) == conj12 x.

Lemma pow_proper x y n : x == y -> pow x n == pow y n.
Proof. rewrite !pow12_pw. apply (pw_proper one12 mul (eq12 p) _). Qed.
Lemma pow_add x m n : 0 <= m -> 0 <= n -> pow x (m + n) = mul (pow x m) (pow x n).
Proof. rewrite !pow12_pw. apply (pw_add (F12_ring xi)). Qed.
Lemma pow_mul x m n : 0 <= m -> 0 <= n -> pow x (m * n) = pow (pow x m) n.
Proof. rewrite !pow12_pw. apply (pw_mul (F12_ring xi)). Qed.
Lemma pow_1 x : pow x 1 = x.
Proof. rewrite !pow12_pw. apply (pw_1 (F12_ring xi)). Qed.
Lemma pow_one n : pow one12 n = one12.
Proof. rewrite !pow12_pw. apply (pw_one (F12_ring xi)). Qed.
Lemma p_pos k : 0 <= k -> 1 <= p ^ k.
Proof. intros. pose proof (prime_ge_2 _ P). assert (0 < p ^ k) by (apply Z.pow_pos_nonneg; lia). lia. Qed.

Lemma conj12_conj12 x : conj12 (conj12 x) = x.
Proof. destruct x as [a [[b c] d]]. unfold conj12, neg6. peq; [reflexivity|..]; ring. Qed.
Lemma conj12_eq x y : x == y -> conj12 x == conj12 y.
Proof.
  destruct x as [a b], y as [c d]. intros [H1 H2]. cbn [fst snd] in *. split; cbn [conj12 fst snd]; [exact H1|].
  rewrite H2. reflexivity.
Qed.
Lemma pow_p12 x : pow x (p ^ 12) == x.
Proof.
  pose proof (p_pos 6 ltac:(lia)). replace (p ^ 12) with (p ^ 6 * p ^ 6) by ring. rewrite pow_mul by lia.
  rewrite pow_p6, (conj12_eq _ _ (pow_p6 x)), conj12_conj12. reflexivity.
Qed.
Lemma pow_less x y n : mul x y == one12 -> 1 <= n -> mul (pow x n) y == pow x (n - 1).
Proof.
  intros H L. replace n with ((n - 1) + 1) at 1 by ring. rewrite pow_add, pow_1 by lia.
  replace (mul (mul (pow x (n - 1)) x) y) with (mul (pow x (n - 1)) (mul x y)) by ring. rewrite H. triv.
Qed.
Lemma order_12 x y : mul x y == one12 -> pow x (p ^ 12 - 1) == one12.
Proof.
  intros H. rewrite <- (pow_less x y) by (auto; apply p_pos; lia). rewrite pow_p12. exact H.
Qed.
Definition Phi : Z := p ^ 4 - p ^ 2 + 1.
Lemma Phi_pos : 0 < Phi.
Proof. unfold Phi. pose proof (p_pos 2 ltac:(lia)). replace (p ^ 4) with (p ^ 2 * p ^ 2) by ring. nia. Qed.
Definition easy : Z := (p ^ 6 - 1) * (p ^ 2 + 1).
Lemma easy_Phi : easy * Phi = p ^ 12 - 1.
Proof. unfold easy, Phi. ring. Qed.
Lemma easy_pos : 0 <= easy.
Proof. unfold easy. pose proof (p_pos 2 ltac:(lia)). pose proof (p_pos 6 ltac:(lia)). nia. Qed.
Lemma easy_cyclotomic x y : mul x y == one12 -> cyclotomic p xi (pow x easy).
Proof.
  intros H. unfold cyclotomic. fold Phi. rewrite <- pow_mul by (apply easy_pos || apply Z.lt_le_incl, Phi_pos).
  rewrite easy_Phi. eapply order_12, H.
Qed.
Lemma cyc_pow g e : cyclotomic p xi g -> 0 <= e -> cyclotomic p xi (pow g e).
Proof.
  unfold cyclotomic. fold Phi. intros H L. pose proof Phi_pos. rewrite <- pow_mul by lia.
  rewrite Z.mul_comm, pow_mul by lia. rewrite (pow_proper _ _ e H), pow_one. reflexivity.
Qed.
Lemma pow_mod g e : cyclotomic p xi g -> 0 <= e -> pow g e == pow g (e mod Phi).
Proof.
  unfold cyclotomic. fold Phi. intros H L. pose proof Phi_pos as HP. rewrite (Z.div_mod e Phi) at 1 by lia.
  pose proof (Z.div_pos e Phi L HP). pose proof (Z.mod_pos_bound e Phi HP).
  rewrite pow_add, pow_mul by nia. rewrite (pow_proper _ _ (e / Phi) H), pow_one. triv.
Qed.
Lemma conj_pow g e : 0 <= e -> conj12 (pow g e) == pow g (e * p ^ 6).
Proof.
  intros H. pose proof (p_pos 6 ltac:(lia)). rewrite <- pow_p6, <- pow_mul by lia. reflexivity.
Qed.
End Exp.

Lemma bn_pow_p6 x : eq12 bn256_fq_p (pow12 bn_xi x (bn256_fq_p ^ 6)) (conj12 x).
Proof. exact (pow_p6 bn256_fq_p bn256_fq_p_prime bn_p4 bn_p6 bn_xi bn_zeta bn_zeta_g bn_zeta_6 x). Qed.
Lemma bls_pow_p6 x : eq12 bls12_381_fq_p (pow12 bls_xi x (bls12_381_fq_p ^ 6)) (conj12 x).
Proof. exact (pow_p6 bls12_381_fq_p bls12_381_fq_p_prime bls_p4 bls_p6 bls_xi bls_zeta bls_zeta_g bls_zeta_6 x). Qed.
