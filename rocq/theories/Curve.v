(** The chord-and-tangent law on y^2 = x^3 + b modulo a prime: it is a partial
    function with values on the curve, commutative, with inverses. *)
From Verif Require Import Prelude FieldZ ModArith SpecEcc.
From Verif Require Import FieldSatz.

Local Open Scope Z_scope.

Section Curve.
Variable w b : Z.
Hypothesis P : prime w.

Local Notation OC := (SpecEcc.on_curve w b).
Local Notation ADD := (SpecEcc.pt_add w).

Lemma wpos : 1 < w.
Proof. pose proof (prime_ge_2 w P). lia. Qed.

Lemma res x : 0 <= x mod w < w.
Proof. apply Z.mod_pos_bound. pose proof wpos. lia. Qed.
Lemma res_eq x y : 0 <= x < w -> 0 <= y < w -> x ≡ y ⟨w⟩ -> x = y.
Proof. intros. eapply eqm_small; eauto. Qed.
Lemma ne_sub x y : 0 <= x < w -> 0 <= y < w -> x <> y -> ~ x - y ≡ 0 ⟨w⟩.
Proof. intros Hx Hy N K. apply N, res_eq; auto. apply eqm_sub_0. exact K. Qed.

(** Points of equal abscissa are equal or opposite. *)
Lemma same_x x y y' : OC (Aff x y) -> OC (Aff x y') -> y = y' \/ (y + y') mod w = 0.
Proof.
  intros (Hx & Hy & C1) (_ & Hy' & C2).
  assert (E : (y - y') * (y + y') ≡ 0 ⟨w⟩).
  { change (y * y ≡ x * x * x + b ⟨w⟩) in C1. change (y' * y' ≡ x * x * x + b ⟨w⟩) in C2.
    replace ((y - y') * (y + y')) with (y * y - y' * y') by ring. rewrite C1, C2. apply eqm_eq. ring. }
  apply eqm_cancel in E; [|exact P]. destruct E as [E|E].
  - left. apply res_eq; auto. apply eqm_sub_0. exact E.
  - right. apply eqm_0_iff. exact E.
Qed.

Lemma chord_on x1 y1 x2 y2 l :
  OC (Aff x1 y1) -> OC (Aff x2 y2) -> x1 <> x2 -> (x1 - x2) * l ≡ y1 - y2 ⟨w⟩ ->
  OC (third w l x1 y1 x2).
Proof.
  intros (Hx1 & Hy1 & C1) (Hx2 & Hy2 & C2) N L. split; [apply res|]. split; [apply res|].
  change (y1 * y1 ≡ x1 * x1 * x1 + b ⟨w⟩) in C1. change (y2 * y2 ≡ x2 * x2 * x2 + b ⟨w⟩) in C2.
  match goal with |- ?l mod w = ?r mod w => change (l ≡ r ⟨w⟩) end.
  pose proof (ne_sub _ _ Hx1 Hx2 N) as N'. estrip. apply (eqm_mul_cancel_l w (x1 - x2)); auto.
  apply chord_id with (y2 := y2); auto.
Qed.
Lemma tangent_on x y l :
  OC (Aff x y) -> ~ 2 * y ≡ 0 ⟨w⟩ -> 2 * y * l ≡ 3 * x * x ⟨w⟩ -> OC (third w l x y x).
Proof.
  intros (Hx1 & Hy1 & C1) N L. split; [apply res|]. split; [apply res|].
  change (y * y ≡ x * x * x + b ⟨w⟩) in C1.
  match goal with |- ?l mod w = ?r mod w => change (l ≡ r ⟨w⟩) end.
  estrip. apply tangent_id; auto.
Qed.

Lemma pt_add_on p q r : OC p -> OC q -> ADD p q r -> OC r.
Proof.
  intros Cp Cq H. destruct H; auto.
  - exact Logic.I.
  - apply tangent_on; auto.
  - eapply chord_on; eauto.
Qed.

Lemma third_ext l l' x1 y1 x2 : l ≡ l' ⟨w⟩ -> third w l x1 y1 x2 = third w l' x1 y1 x2.
Proof.
  intros L. unfold third. assert (E : (l * l - x1 - x2) mod w = (l' * l' - x1 - x2) mod w).
  { change (l * l - x1 - x2 ≡ l' * l' - x1 - x2 ⟨w⟩). rewrite L. reflexivity. }
  rewrite E. f_equal. set (z := (l' * l' - x1 - x2) mod w).
  change (l * (x1 - z) - y1 ≡ l' * (x1 - z) - y1 ⟨w⟩). rewrite L. reflexivity.
Qed.
Lemma pt_add_fun p q r r' : OC p -> OC q -> ADD p q r -> ADD p q r' -> r = r'.
Proof.
  intros Cp Cq H H'. pose proof wpos. destruct H; inversion H'; subst; try reflexivity; try congruence.
  1-2: exfalso; match goal with K : (2 * ?y) mod w <> 0, L : (?y + ?y) mod w = 0 |- _ => apply K; rewrite <- L; f_equal; ring end.
  - apply third_ext. apply (eqm_mul_cancel_l w (2 * y)); auto. unfold eqm in *. congruence.
  - apply third_ext. apply (eqm_mul_cancel_l w (x1 - x2)); auto.
    + destruct Cp as (? & _), Cq as (? & _). apply ne_sub; auto.
    + unfold eqm in *. congruence.
Qed.
Lemma pt_neg_on p : OC p -> OC (pt_neg w p).
Proof.
  destruct p as [|x y]; [auto|]. intros (Hx & Hy & C). split; [auto|]. split; [apply res|].
  rewrite <- C. match goal with |- ?l mod w = ?r mod w => change (l ≡ r ⟨w⟩) end. estrip. apply eqm_eq. ring.
Qed.
Lemma pt_add_neg p : OC p -> ADD p (pt_neg w p) Inf.
Proof.
  destruct p as [|x y]; intros _; [constructor|]. apply add_opposite.
  apply (proj1 (eqm_0_iff _ _)). estrip. apply eqm_eq. ring.
Qed.
Lemma pt_add_comm p q r : OC p -> OC q -> ADD p q r -> ADD q p r.
Proof.
  intros Cp Cq H. destruct H; try constructor; auto.
  - rewrite Z.add_comm. auto.
  - assert (E : third w l x1 y1 x2 = third w l x2 y2 x1).
    { unfold third. f_equal.
      - f_equal. ring.
      - replace (l * l - x2 - x1) with (l * l - x1 - x2) by ring.
        match goal with |- ?l mod w = ?r mod w => change (l ≡ r ⟨w⟩) end.
        change ((x1 - x2) * l ≡ y1 - y2 ⟨w⟩) in H0. set (z := (l * l - x1 - x2) mod w).
        apply eqm_sub_0. transitivity ((x1 - x2) * l - (y1 - y2)); [apply eqm_eq; ring|]. rewrite H0. apply eqm_eq. ring. }
    rewrite E. apply add_chord; [congruence|]. change ((x1 - x2) * l ≡ y1 - y2 ⟨w⟩) in H0.
    change ((x2 - x1) * l ≡ y2 - y1 ⟨w⟩). transitivity (- ((x1 - x2) * l)); [apply eqm_eq; ring|].
    rewrite H0. apply eqm_eq; ring.
Qed.
(** The law is total on the curve. *)
Lemma pt_add_total p q : OC p -> OC q -> exists r, ADD p q r.
Proof.
  intros Cp Cq. pose proof wpos. destruct p as [|x1 y1]; [eexists; constructor|]. destruct q as [|x2 y2]; [eexists; constructor|].
  assert (DIV : forall d n, ~ d ≡ 0 ⟨w⟩ -> exists l, d * l ≡ n ⟨w⟩).
  { intros d n N. assert (R : rel_prime d w).
    { apply rel_prime_sym, prime_rel_prime; [exact P|]. intros K. apply N, eqm_0_iff, Z.mod_divide; auto; lia. }
    apply rel_prime_bezout in R. destruct R as [u v E]. exists (u * n).
    transitivity ((u * d + v * w) * n); [|rewrite E; apply eqm_eq; ring].
    apply eqm_divide; [lia|]. exists (- v * n). ring. }
  destruct (Z.eq_dec x1 x2) as [->|N].
  - destruct (same_x _ _ _ Cp Cq) as [->|E]; [|eexists; apply add_opposite; exact E].
    destruct (Z.eq_dec ((2 * y2) mod w) 0) as [Z0|N0].
    + eexists. apply add_opposite. rewrite <- Z0. f_equal. ring.
    + destruct (DIV (2 * y2) (3 * x2 * x2)) as [l L]; [rewrite eqm_0_iff; auto|].
      eexists. eapply add_tangent; eauto.
  - destruct Cp as (? & _), Cq as (? & _). destruct (DIV (x1 - x2) (y1 - y2)) as [l L]; [apply ne_sub; auto|].
    eexists. eapply add_chord; eauto.
Qed.
End Curve.
