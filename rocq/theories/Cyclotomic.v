(** Squaring in the cyclotomic subgroup (Granger-Scott). *)
From Coq Require Import ZArith Znumtheory Lia Ring Setoid Morphisms.
From Verif Require Import ModArith SpecTower TowerRing Frobenius.
Local Open Scope Z_scope.
Add Ring F2r : F2_ring.

(** What the gadget computes. *)
Definition csq (xi : F2) (x : F12) : F12 :=
  let '((x0, x2, x4), (x1, x3, x5)) := x in
  let two := (2, 0) in let three := (3, 0) in
  let sq0 a b := add2 (mul2 xi (mul2 b b)) (mul2 a a) in
  let sq1 a b := mul2 two (mul2 a b) in
  ((sub2 (mul2 three (sq0 x0 x3)) (mul2 two x0),
    sub2 (mul2 three (sq0 x1 x4)) (mul2 two x2),
    sub2 (mul2 three (sq0 x2 x5)) (mul2 two x4)),
   (add2 (mul2 three (mul2 xi (sq1 x2 x5))) (mul2 two x1),
    add2 (mul2 three (sq1 x0 x3)) (mul2 two x3),
    add2 (mul2 three (sq1 x1 x4)) (mul2 two x5))).

Section Cyc.
Variable p : Z.
Hypothesis P : prime p.
Hypothesis P4 : p mod 4 = 3.
Hypothesis P6 : p mod 6 = 1.
Variable xi : F2.
Add Ring F12r : (F12_ring xi).
Notation pw12 := (@pw F12 one12 (mul12 xi)).
Variable zeta : Z.
Hypothesis zeta_g : eq2 p (mul2 (conj2 (g1 p xi)) (g1 p xi)) (zeta, 0).
Hypothesis zeta_6 : zeta * zeta ≡ zeta - 1 ⟨p⟩.

(** Multiplication of the six coordinates by integers. *)
Definition dil (k0 k1 k2 k3 k4 k5 : Z) (x : F12) : F12 :=
  let '((x0, x2, x4), (x1, x3, x5)) := x in
  ((mul2 (k0, 0) x0, mul2 (k2, 0) x2, mul2 (k4, 0) x4),
   (mul2 (k1, 0) x1, mul2 (k3, 0) x3, mul2 (k5, 0) x5)).
Lemma c_eq2 a b : a ≡ b ⟨p⟩ -> eq2 p (a, 0) (b, 0).
Proof. intros H. apply eq2_intro; [exact H|reflexivity]. Qed.
Lemma eq12_of6 x0 x1 x2 x3 x4 x5 y0 y1 y2 y3 y4 y5 :
  eq2 p x0 y0 -> eq2 p x1 y1 -> eq2 p x2 y2 -> eq2 p x3 y3 -> eq2 p x4 y4 -> eq2 p x5 y5 ->
  eq12 p ((x0, x2, x4), (x1, x3, x5)) ((y0, y2, y4), (y1, y3, y5)).
Proof. intros. split; apply eq6_intro; assumption. Qed.

Definition phi2 := dil 1 zeta (zeta - 1) (-1) (- zeta) (1 - zeta).
Definition phi4 := dil 1 (zeta - 1) (- zeta) 1 (zeta - 1) (- zeta).

Lemma pow_p2 x : eq12 p (pw12 x (p ^ 2)) (phi2 x).
Proof.
  pose proof (prime_ge_2 _ P). replace (p ^ 2) with (p * p) by ring. rewrite (pw_mul (F12_ring xi)) by lia.
  rewrite (pw_proper one12 (mul12 xi) (eq12 p) _ _ _ p (frob12 p P P4 P6 xi x)).
  rewrite (frob12 p P P4 P6 xi), fr12_step.
  set (g := g1 p xi) in *. set (nn := mul2 (conj2 g) g) in *.
  rewrite (fr12_proper p _ 1 _ (mul2 nn nn) _ (mul2 (mul2 nn nn) (mul2 nn nn)) _ nn).
  2: apply eqm_eq; ring.
  2,3: rewrite !conj2_mul; apply eq_subrelation; [typeclasses eauto|]; unfold nn; ring.
  2: reflexivity.
  rewrite (fr12_proper p _ 1 _ (zeta - 1, 0) _ (- zeta, 0) _ (zeta, 0)).
  - destruct x as [[[x0 x2] x4] [[x1 x3] x5]]. unfold fr12, fr6, scale6, phi2, dil. rewrite !fr2_1.
    apply eq12_of6.
    + apply eq_subrelation; [typeclasses eauto|]. change (1, 0) with one2. ring.
    + apply eq_subrelation; [typeclasses eauto|]. ring.
    + apply eq_subrelation; [typeclasses eauto|]. ring.
    + etransitivity; [apply eq_subrelation; [typeclasses eauto|]|].
      { instantiate (1 := mul2 (mul2 (zeta - 1, 0) (zeta, 0)) x3). ring. }
      apply mul2_proper; [|reflexivity]. unfold mul2. apply eq2_intro; [|apply eqm_eq; ring].
      replace ((zeta - 1) * zeta - 0 * 0) with (zeta * zeta - zeta) by ring. rewrite zeta_6. apply eqm_eq. ring.
    + apply eq_subrelation; [typeclasses eauto|]. ring.
    + etransitivity; [apply eq_subrelation; [typeclasses eauto|]|].
      { instantiate (1 := mul2 (mul2 (- zeta, 0) (zeta, 0)) x5). ring. }
      apply mul2_proper; [|reflexivity]. unfold mul2. apply eq2_intro; [|apply eqm_eq; ring].
      replace (- zeta * zeta - 0 * 0) with (- (zeta * zeta)) by ring. rewrite zeta_6. apply eqm_eq. ring.
  - reflexivity.
  - rewrite zeta_g. unfold mul2. apply eq2_intro; [|apply eqm_eq; ring].
    replace (zeta * zeta - 0 * 0) with (zeta * zeta) by ring. exact zeta_6.
  - rewrite zeta_g. unfold mul2. apply eq2_intro; [|apply eqm_eq; ring].
    replace ((zeta * zeta - 0 * 0) * (zeta * zeta - 0 * 0) - (zeta * 0 + 0 * zeta) * (zeta * 0 + 0 * zeta))
      with (zeta * zeta * (zeta * zeta)) by ring. rewrite zeta_6.
    replace ((zeta - 1) * (zeta - 1)) with (zeta * zeta - 2 * zeta + 1) by ring. rewrite zeta_6. apply eqm_eq. ring.
  - exact zeta_g.
Qed.
Lemma dil_proper k0 k1 k2 k3 k4 k5 x y : eq12 p x y -> eq12 p (dil k0 k1 k2 k3 k4 k5 x) (dil k0 k1 k2 k3 k4 k5 y).
Proof.
  destruct x as [[[x0 x2] x4] [[x1 x3] x5]], y as [[[y0 y2] y4] [[y1 y3] y5]].
  intros [(H0 & H2 & H4) (H1 & H3 & H5)]. cbn [fst snd] in *. apply eq12_of6; apply mul2_proper; auto; reflexivity.
Qed.
Lemma pow_p4 x : eq12 p (pw12 x (p ^ 4)) (phi4 x).
Proof.
  pose proof (prime_ge_2 _ P). replace (p ^ 4) with (p ^ 2 * p ^ 2) by ring.
  assert (0 <= p ^ 2) by (apply Z.pow_nonneg; lia).
  rewrite (pw_mul (F12_ring xi)) by lia.
  rewrite pow_p2. unfold phi2. rewrite (dil_proper _ _ _ _ _ _ _ _ (pow_p2 x)).
  destruct x as [[[x0 x2] x4] [[x1 x3] x5]]. unfold phi2, phi4, dil.
  assert (G : forall a b c y, a * b ≡ c ⟨p⟩ -> eq2 p (mul2 (a, 0) (mul2 (b, 0) y)) (mul2 (c, 0) y)).
  { intros a b c y K. replace (mul2 (a, 0) (mul2 (b, 0) y)) with (mul2 (a * b, 0) y); [apply mul2_proper; [apply c_eq2, K|reflexivity]|].
    destruct y. cbn. peq; ring. }
  apply eq12_of6; apply G.
  - reflexivity.
  - exact zeta_6.
  - replace ((zeta - 1) * (zeta - 1)) with (zeta * zeta - 2 * zeta + 1) by ring. rewrite zeta_6. apply eqm_eq. ring.
  - reflexivity.
  - replace (- zeta * - zeta) with (zeta * zeta) by ring. exact zeta_6.
  - replace ((1 - zeta) * (1 - zeta)) with (zeta * zeta - 2 * zeta + 1) by ring. rewrite zeta_6. apply eqm_eq. ring.
Qed.

Lemma cancel_z a b : eq2 p (mul2 (zeta, 0) a) (mul2 (zeta, 0) b) -> eq2 p a b.
Proof.
  intros H. assert (U : eq2 p (mul2 (1 - zeta, 0) (zeta, 0)) one2).
  { unfold mul2, one2. apply eq2_intro; [|apply eqm_eq; ring]. replace ((1 - zeta) * zeta - 0 * 0) with (zeta - zeta * zeta) by ring.
    rewrite zeta_6. apply eqm_eq. ring. }
  replace a with (mul2 one2 a) by ring. replace b with (mul2 one2 b) by ring.
  rewrite <- U. replace (mul2 (mul2 (1 - zeta, 0) (zeta, 0)) a) with (mul2 (1 - zeta, 0) (mul2 (zeta, 0) a)) by ring.
  rewrite H. apply eq_subrelation; [typeclasses eauto|]. ring.
Qed.
Lemma cancel_z1 a b : eq2 p (mul2 (zeta - 1, 0) a) (mul2 (zeta - 1, 0) b) -> eq2 p a b.
Proof.
  intros H. apply cancel_z, cancel_z.
  assert (U : eq2 p (mul2 (zeta, 0) (zeta, 0)) (zeta - 1, 0)).
  { unfold mul2, one2. apply eq2_intro; [|apply eqm_eq; ring]. replace (zeta * zeta - 0 * 0) with (zeta * zeta) by ring. exact zeta_6. }
  replace (mul2 (zeta, 0) (mul2 (zeta, 0) a)) with (mul2 (mul2 (zeta, 0) (zeta, 0)) a) by ring.
  replace (mul2 (zeta, 0) (mul2 (zeta, 0) b)) with (mul2 (mul2 (zeta, 0) (zeta, 0)) b) by ring.
  rewrite U. exact H.
Qed.
Lemma lin (c a b X C : F2) : eq2 p a b -> sub2 X (mul2 c a) = sub2 C (mul2 c b) -> eq2 p C X.
Proof.
  intros H E. replace C with (add2 (sub2 C (mul2 c b)) (mul2 c b)) by ring. rewrite <- E, <- H.
  apply eq_subrelation; [typeclasses eauto|]. ring.
Qed.

Definition cyc (x : F12) : Prop := eq12 p (pw12 x (p ^ 4 - p ^ 2 + 1)) one12.

Theorem cyc_square x : cyc x -> eq12 p (csq xi x) (mul12 xi x x).
Proof.
  intros H. pose proof (prime_ge_2 _ P).
  assert (E : eq12 p (mul12 xi (phi4 x) x) (phi2 x)).
  { rewrite <- pow_p2, <- pow_p4. rewrite <- (pw_1 (F12_ring xi) x) at 2.
    rewrite <- (pw_add (F12_ring xi)) by (try lia; apply Z.pow_nonneg; lia).
    replace (p ^ 4 + 1) with ((p ^ 4 - p ^ 2 + 1) + p ^ 2) by ring.
    rewrite (pw_add (F12_ring xi)) by nia. unfold cyc in H. rewrite H.
    apply eq_subrelation; [typeclasses eauto|]. ring. }
  clear H. destruct x as [[[x0 x2] x4] [[x1 x3] x5]]. unfold phi4, phi2, dil in E.
  unfold mul12, add6, mul6, v6 in E. destruct E as [(E0 & E2 & E4) (E1 & E3 & E5)].
  set (zz := (zeta, 0)) in *.
  assert (K0 : (zeta - 1, 0) = sub2 zz one2) by (unfold zz; cbn; peq; ring).
  assert (K1 : (- zeta, 0) = neg2 zz) by (unfold zz; cbn; peq; ring).
  assert (K2 : (1 - zeta, 0) = sub2 one2 zz) by (unfold zz; cbn; peq; ring).
  assert (K3 : (1, 0) = one2) by reflexivity.
  assert (K4 : (-1, 0) = neg2 one2) by reflexivity.
  rewrite K0, K1, K2, K3, K4 in *.
  assert (Q0 : eq2 p (sub2 (add2 (mul2 x0 x0) (mul2 xi (mul2 x3 x3))) (mul2 xi (add2 (mul2 x1 x5) (mul2 x2 x4)))) x0).
  { etransitivity; [|etransitivity; [exact E0|]]; apply eq_subrelation; try typeclasses eauto; ring. }
  assert (Q1 : eq2 p (add2 (mul2 x0 x1) (mul2 xi (sub2 (mul2 x3 x4) (mul2 (add2 one2 one2) (mul2 x2 x5))))) x1).
  { apply cancel_z. fold zz. etransitivity; [|exact E1]; apply eq_subrelation; try typeclasses eauto; ring. }
  assert (Q2 : eq2 p (sub2 (add2 (mul2 x1 x1) (mul2 xi (mul2 x4 x4))) (add2 (mul2 x0 x2) (mul2 xi (mul2 x3 x5)))) x2).
  { apply cancel_z1. rewrite K0. etransitivity; [|exact E2]; apply eq_subrelation; try typeclasses eauto; ring. }
  assert (Q3 : eq2 p (sub2 (add2 (mul2 x1 x2) (mul2 xi (mul2 x4 x5))) (mul2 (add2 one2 one2) (mul2 x0 x3))) x3).
  { transitivity (neg2 (neg2 x3)); [|apply eq_subrelation; [typeclasses eauto|ring]].
    transitivity (neg2 (mul2 (neg2 one2) x3)); [|apply eq_subrelation; [typeclasses eauto|ring]].
    rewrite <- E3; apply eq_subrelation; try typeclasses eauto; ring. }
  assert (Q4 : eq2 p (sub2 (add2 (mul2 x2 x2) (mul2 xi (mul2 x5 x5))) (add2 (mul2 x0 x4) (mul2 x1 x3))) x4).
  { apply cancel_z. fold zz. transitivity (neg2 (mul2 (neg2 zz) x4)); [|apply eq_subrelation; [typeclasses eauto|ring]].
    rewrite <- E4; apply eq_subrelation; try typeclasses eauto; ring. }
  assert (Q5 : eq2 p (sub2 (add2 (mul2 x0 x5) (mul2 x2 x3)) (mul2 (add2 one2 one2) (mul2 x1 x4))) x5).
  { apply cancel_z1. rewrite K0. transitivity (neg2 (mul2 (sub2 one2 zz) x5)); [|apply eq_subrelation; [typeclasses eauto|ring]].
    rewrite <- E5; apply eq_subrelation; try typeclasses eauto; ring. }
  clear E0 E1 E2 E3 E4 E5. unfold csq, mul12, add6, mul6, v6.
  change (2, 0) with (add2 one2 one2). change (3, 0) with (add2 one2 (add2 one2 one2)).
  apply eq12_of6.
  - apply (lin (neg2 (add2 one2 one2)) _ _ _ _ Q0). ring.
  - apply (lin (add2 one2 one2) _ _ _ _ Q1). ring.
  - apply (lin (neg2 (add2 one2 one2)) _ _ _ _ Q2). ring.
  - apply (lin (add2 one2 one2) _ _ _ _ Q3). ring.
  - apply (lin (neg2 (add2 one2 one2)) _ _ _ _ Q4). ring.
  - apply (lin (add2 one2 one2) _ _ _ _ Q5). ring.
Qed.
End Cyc.
