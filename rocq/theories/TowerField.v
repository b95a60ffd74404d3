(** Every element of F_p12 (hence of F_p6 and F_p2) other than zero is invertible. *)
From Coq Require Import ZArith Znumtheory Lia Ring Setoid Morphisms.
From Verif Require Import ModArith Moduli SpecTower TowerRing Frobenius Cyclotomic PairingConsts PairingChip PairingFacts PairingExp.
Local Open Scope Z_scope.

Section Field.
Variable p : Z.
Hypothesis P : prime p.
Hypothesis P4 : p mod 4 = 3.
Hypothesis P6 : p mod 6 = 1.
Variable xi : F2.
Add Ring F2r : F2_ring.
Add Ring F6r : (F6_ring xi).
Add Ring F12r : (F12_ring xi).
Variable zeta : Z.
Hypothesis zeta_g : eq2 p (mul2 (conj2 (g1 p xi)) (g1 p xi)) (zeta, 0).
Hypothesis zeta_6 : zeta * zeta ≡ zeta - 1 ⟨p⟩.
Notation pow := (pow12 xi).
Notation mul := (mul12 xi).
Notation "x == y" := (eq12 p x y) (at level 70).
Notation "'%' f" := (f p P xi (pow_p6 p P P4 P6 xi zeta zeta_g zeta_6)) (at level 9).

Lemma p_ge : 7 <= p.
Proof.
  clear - P P4 P6. pose proof (prime_ge_2 _ P). assert (p mod 6 = 1) by exact P6. assert (p <> 2 /\ p <> 3 /\ p <> 4 /\ p <> 5 /\ p <> 6).
  { repeat split; intros E; rewrite E in *; vm_compute in P4, P6; discriminate. }
  lia.
Qed.
Lemma cancel_k k n a : k * n ≡ -3 ⟨p⟩ \/ k * n ≡ 1 ⟨p⟩ \/ k * n ≡ -2 ⟨p⟩ -> eq2 p (mul2 (k + 1, 0) a) a -> eq2 p a zero2.
Proof.
  intros K H. destruct a as [a b]. apply eq2_elim in H. destruct H as [H1 H2].
  assert (D : forall a, k * a ≡ 0 ⟨p⟩ -> a ≡ 0 ⟨p⟩).
  { clear - K P P6 P4. intros a E. pose proof p_ge as G. apply Z.mod_divide in E; [|lia].
    apply prime_mult in E; [|exact P]. destruct E as [E|E].
    - exfalso. assert (E' : (p | k * n)) by (apply Z.divide_mul_l; exact E). apply Z.mod_divide in E'; [|lia].
      unfold eqm in K. rewrite E' in K. assert (M3 : (-3) mod p = p - 3) by (symmetry; apply (Z.mod_unique _ _ (-1)); lia).
      assert (M2 : (-2) mod p = p - 2) by (symmetry; apply (Z.mod_unique _ _ (-1)); lia).
      rewrite M3, M2, Z.mod_1_l in K by lia. lia.
    - apply Z.mod_divide in E; [|lia]. unfold eqm. rewrite E, Z.mod_0_l by lia. reflexivity. }
  apply eq2_intro; apply D.
  - replace (k * a) with (((k + 1) * a - 0 * b) - a) by ring. rewrite H1. apply eqm_eq. ring.
  - replace (k * b) with (((k + 1) * b + 0 * a) - b) by ring. rewrite H2. apply eqm_eq. ring.
Qed.
Lemma cancel_k' k n a m : m = k + 1 -> k * n ≡ -3 ⟨p⟩ \/ k * n ≡ 1 ⟨p⟩ \/ k * n ≡ -2 ⟨p⟩ -> eq2 p (mul2 (m, 0) a) a -> eq2 p a zero2.
Proof. intros ->. apply cancel_k. Qed.

(** Idempotents are 0 and 1. *)
Lemma idem_pow e n : mul e e == e -> 1 <= n -> pow e n == e.
Proof.
  intros H L. replace n with (Z.succ (n - 1)) by lia. assert (M : 0 <= n - 1) by lia.
  pattern (n - 1). apply natlike_ind; [| |exact M].
  - change (Z.succ 0) with 1. rewrite (% pow_1). reflexivity.
  - intros k K IH. replace (Z.succ (Z.succ k)) with (Z.succ k + 1) by ring.
    rewrite (% pow_add), (% pow_1) by lia. rewrite IH. exact H.
Qed.
Lemma idempotent e : mul e e == e -> e == zero12 \/ e == one12.
Proof.
  intros H. pose proof p_ge as G.
  assert (E2 : phi2 zeta e == e).
  { rewrite <- (pow_p2 p P P4 P6 xi zeta zeta_g zeta_6 e). rewrite <- pow12_pw. apply idem_pow; [exact H|]. apply (% p_pos). lia. }
  assert (E1 : pow e p == e) by (apply idem_pow; [exact H|lia]).
  rewrite pow12_pw in E1. rewrite (frob12 p P P4 P6 xi) in E1.
  destruct e as [[[x0 x2] x4] [[x1 x3] x5]]. unfold phi2, dil in E2. destruct E2 as [(_ & A2 & A4) (A1 & A3 & A5)]. cbn [fst snd] in *.
  assert (Z2 : zeta * (1 - zeta) ≡ 1 ⟨p⟩). { replace (zeta * (1 - zeta)) with (zeta - zeta * zeta) by ring. rewrite zeta_6. apply eqm_eq. ring. }
  assert (Z3 : (zeta - 2) * (zeta + 1) ≡ -3 ⟨p⟩). { replace ((zeta - 2) * (zeta + 1)) with (zeta * zeta - zeta - 2) by ring. rewrite zeta_6. apply eqm_eq. ring. }
  assert (B1 : eq2 p x1 zero2).
  { apply (cancel_k' (zeta - 1) (- zeta) _ zeta); [ring| |exact A1]. right. left. etransitivity; [|exact Z2]. apply eqm_eq. ring. }
  assert (B2 : eq2 p x2 zero2).
  { apply (cancel_k' (zeta - 2) (zeta + 1) _ (zeta - 1)); [ring| |exact A2]. left. exact Z3. }
  assert (B3 : eq2 p x3 zero2).
  { apply (cancel_k' (-2) 1 _ (-1)); [ring| |exact A3]. right. right. reflexivity. }
  assert (B4 : eq2 p x4 zero2).
  { apply (cancel_k' (- zeta - 1) (2 - zeta) _ (- zeta)); [ring| |exact A4]. left. etransitivity; [|exact Z3]. apply eqm_eq. ring. }
  assert (B5 : eq2 p x5 zero2).
  { apply (cancel_k' (- zeta) (zeta - 1) _ (1 - zeta)); [ring| |exact A5]. right. left. etransitivity; [|exact Z2]. apply eqm_eq. ring. }
  destruct E1 as [(C0 & _) _]. unfold fr12, fr6 in C0. cbn [fst snd] in C0. rewrite fr2_conj in C0.
  assert (H0 : eq2 p (mul2 x0 x0) x0).
  { destruct H as [(D0 & _) _]. cbn [mul12 mul6 add6 v6 fst snd] in D0. rewrite B1, B2, B3, B4, B5 in D0.
    etransitivity; [|exact D0].
    apply eq_subrelation; [typeclasses eauto|]. ring. }
  destruct x0 as [a b]. cbn [conj2] in C0. apply eq2_elim in C0. destruct C0 as [_ C0].
  assert (Hb : b ≡ 0 ⟨p⟩).
  { assert (K : 2 * b ≡ 0 ⟨p⟩) by (replace (2 * b) with (b - - b) by ring; rewrite C0; apply eqm_eq; ring).
    apply Z.mod_divide in K; [|lia]. apply prime_mult in K; [|exact P]. destruct K as [K|K].
    - apply Z.divide_pos_le in K; lia.
    - apply Z.mod_divide in K; [|lia]. unfold eqm. rewrite K, Z.mod_0_l by lia. reflexivity. }
  cbn [mul2] in H0. apply eq2_elim in H0. destruct H0 as [H0 _]. rewrite Hb in H0.
  assert (Ha : a ≡ 0 ⟨p⟩ \/ a ≡ 1 ⟨p⟩).
  { assert (K : a * (a - 1) ≡ 0 ⟨p⟩) by (replace (a * (a - 1)) with ((a * a - 0 * 0) - a) by ring; rewrite H0; apply eqm_eq; ring).
    apply Z.mod_divide in K; [|lia]. apply prime_mult in K; [|exact P]. destruct K as [K|K]; apply Z.mod_divide in K; try lia; [left|right].
    - unfold eqm. rewrite K, Z.mod_0_l by lia. reflexivity.
    - assert (K' : a - 1 ≡ 0 ⟨p⟩) by (unfold eqm; rewrite K, Z.mod_0_l by lia; reflexivity).
      replace a with ((a - 1) + 1) by ring. rewrite K'. reflexivity. }
  destruct Ha as [Ha|Ha]; [left|right]; split; cbn [fst snd zero12 one12]; apply eq6_intro; try assumption; apply eq2_intro; assumption.
Qed.
Theorem nonzero_invertible x : ~ x == zero12 -> exists y, mul x y == one12.
Proof.
  intros N. pose proof (% p_pos 12 ltac:(lia)) as L12. pose proof p_ge as G.
  assert (L : 3 <= p ^ 12). { replace (p ^ 12) with (p * p ^ 11) by ring. pose proof (% p_pos 11 ltac:(lia)). nia. }
  set (q := p ^ 12) in *. pose proof (% pow_p12 x) as F. fold q in F.
  assert (S : mul x (pow x (q - 2)) = pow x (q - 1)).
  { replace (q - 1) with (1 + (q - 2)) by ring. rewrite (% pow_add), (% pow_1) by lia. reflexivity. }
  assert (I : mul (pow x (q - 1)) (pow x (q - 1)) == pow x (q - 1)).
  { rewrite <- (% pow_add) by lia. replace (q - 1 + (q - 1)) with (q + (q - 2)) by ring. rewrite (% pow_add) by lia.
    rewrite F, S. reflexivity. }
  exists (pow x (q - 2)). rewrite S. destruct (idempotent _ I) as [E|E]; [|exact E].
  exfalso. apply N. rewrite <- F. replace q with (1 + (q - 1)) by ring. rewrite (% pow_add), (% pow_1) by lia.
  rewrite E. apply eq_subrelation; [typeclasses eauto|]. ring.
Qed.
Theorem nonzero_invertible6 x : ~ eq6 p x zero6 -> exists y, eq6 p (mul6 xi x y) one6.
Proof.
  intros N. destruct (nonzero_invertible (x, zero6)) as [[y0 y1] [E _]].
  - intros [E _]. apply N, E.
  - exists y0. cbn [mul12 fst snd one12] in E. rewrite <- E. apply eq_subrelation; [typeclasses eauto|]. ring.
Qed.
Theorem nonzero_invertible2 x : ~ eq2 p x zero2 -> exists y, eq2 p (mul2 x y) one2.
Proof.
  intros N. destruct (nonzero_invertible6 (x, zero2, zero2)) as [[[y0 y1] y2] (E & _)].
  - intros (E & _). apply N, E.
  - exists y0. rewrite <- E. apply eq_subrelation; [typeclasses eauto|]. ring.
Qed.
End Field.

Definition bn_field x := nonzero_invertible bn256_fq_p bn256_fq_p_prime bn_p4 bn_p6 bn_xi bn_zeta bn_zeta_g bn_zeta_6 x.
Definition bn_field6 x := nonzero_invertible6 bn256_fq_p bn256_fq_p_prime bn_p4 bn_p6 bn_xi bn_zeta bn_zeta_g bn_zeta_6 x.
Definition bn_field2 x := nonzero_invertible2 bn256_fq_p bn256_fq_p_prime bn_p4 bn_p6 bn_xi bn_zeta bn_zeta_g bn_zeta_6 x.
Definition bls_field x := nonzero_invertible bls12_381_fq_p bls12_381_fq_p_prime bls_p4 bls_p6 bls_xi bls_zeta bls_zeta_g bls_zeta_6 x.
Definition bls_field6 x := nonzero_invertible6 bls12_381_fq_p bls12_381_fq_p_prime bls_p4 bls_p6 bls_xi bls_zeta bls_zeta_g bls_zeta_6 x.
Definition bls_field2 x := nonzero_invertible2 bls12_381_fq_p bls12_381_fq_p_prime bls_p4 bls_p6 bls_xi bls_zeta bls_zeta_g bls_zeta_6 x.
