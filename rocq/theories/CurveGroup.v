(** The points of y^2 = x^3 + b modulo a prime w > 3, with b nonzero, are a commutative
    group under the chord-and-tangent law; multiples of a point and sums of
    multiples.  Associativity: the slopes of a chord and of a tangent satisfy the
    same two equations, and the two ways of adding three points lead to the same
    sum of slopes unless the outer points coincide. *)
From Verif Require Import Prelude FieldZ ModArith SpecEcc FieldSatz Curve.

Local Open Scope Z_scope.

Section Group.
Variable w b : Z.
Hypothesis P : prime w.
Hypothesis w3 : 3 < w.
Hypothesis b0 : b mod w <> 0.

Local Notation OC := (SpecEcc.on_curve w b).
Local Notation ADD := (SpecEcc.pt_add w).
Local Notation slope := (FieldSatz.slope w).

Ltac eqmg := match goal with |- ?l mod w = ?r mod w => change (l ≡ r ⟨w⟩) end.

Lemma two_nz x : 2 * x ≡ 0 ⟨w⟩ -> x ≡ 0 ⟨w⟩.
Proof.
  intros H. apply eqm_cancel in H; [|exact P]. destruct H as [H|H]; [|exact H].
  exfalso. apply (eqm_small w 2 0) in H; lia.
Qed.
Lemma three_nz x : 3 * x ≡ 0 ⟨w⟩ -> x ≡ 0 ⟨w⟩.
Proof.
  intros H. apply eqm_cancel in H; [|exact P]. destruct H as [H|H]; [|exact H].
  exfalso. apply (eqm_small w 3 0) in H; lia.
Qed.

(** Addition of two points that are not opposite, by the slope. *)
Lemma add_slope x1 y1 x2 y2 r : OC (Aff x1 y1) -> OC (Aff x2 y2) -> ADD (Aff x1 y1) (Aff x2 y2) r ->
  (x1 = x2 /\ y1 + y2 ≡ 0 ⟨w⟩ /\ r = Inf) \/
  (exists l, slope l x1 y1 x2 y2 /\ r = third w l x1 y1 x2 /\ ~ (x1 = x2 /\ y1 + y2 ≡ 0 ⟨w⟩)).
Proof.
  intros C1 C2 H. inversion H; subst.
  - left. split; [auto|]. split; [|auto]. apply eqm_0_iff. auto.
  - right. exists l. split; [|split; [reflexivity|]].
    + split; [apply eqm_eq; ring|]. match goal with K : (2 * y2 * l) mod w = _ |- _ => change (2 * y2 * l ≡ 3 * x2 * x2 ⟨w⟩) in K; rename K into L end.
      transitivity (2 * y2 * l); [apply eqm_eq; ring|]. rewrite L. apply eqm_eq. ring.
    + intros (_ & K). match goal with N : (2 * y2) mod w <> 0 |- _ => apply N end. apply (proj1 (eqm_0_iff _ _)).
      rewrite <- K. apply eqm_eq. ring.
  - right. exists l. split; [|split; [reflexivity|tauto]].
    match goal with K : ((x1 - x2) * l) mod w = _ |- _ => change ((x1 - x2) * l ≡ y1 - y2 ⟨w⟩) in K; rename K into L end.
    destruct C1 as (R1 & _ & C1), C2 as (R2 & _ & C2).
    change (y1 * y1 ≡ x1 * x1 * x1 + b ⟨w⟩) in C1. change (y2 * y2 ≡ x2 * x2 * x2 + b ⟨w⟩) in C2.
    split; [rewrite <- L; apply eqm_eq; ring|].
    apply (eqm_mul_cancel_l w (x1 - x2)); [exact P|apply (ne_sub w); auto|].
    transitivity ((x1 - x2) * l * (y1 + y2)); [apply eqm_eq; ring|]. rewrite L.
    transitivity (y1 * y1 - y2 * y2); [apply eqm_eq; ring|]. rewrite C1, C2. apply eqm_eq. ring.
Qed.
Lemma slope_add l x1 y1 x2 y2 : OC (Aff x1 y1) -> OC (Aff x2 y2) -> slope l x1 y1 x2 y2 ->
  ~ (x1 = x2 /\ y1 + y2 ≡ 0 ⟨w⟩) -> ADD (Aff x1 y1) (Aff x2 y2) (third w l x1 y1 x2).
Proof.
  intros C1 C2 [S1 S2] N. destruct (Z.eq_dec x1 x2) as [->|D].
  - destruct (same_x w b P _ _ _ C1 C2) as [->|K].
    + apply add_tangent.
      * intros K. apply N. split; [auto|]. rewrite <- (proj2 (eqm_0_iff _ _) K). apply eqm_eq. ring.
      * eqmg. transitivity (l * (y2 + y2)); [apply eqm_eq; ring|]. rewrite S2. apply eqm_eq. ring.
    + exfalso. apply N. split; [auto|]. apply eqm_0_iff. exact K.
  - apply add_chord; [exact D|]. eqmg. rewrite <- S1. apply eqm_eq. ring.
Qed.
Lemma slope_sym l x1 y1 x2 y2 : slope l x1 y1 x2 y2 -> slope l x2 y2 x1 y1.
Proof.
  intros [S1 S2]. split.
  - transitivity (- (l * (x1 - x2))); [apply eqm_eq; ring|]. rewrite S1. apply eqm_eq. ring.
  - transitivity (l * (y1 + y2)); [apply eqm_eq; ring|]. rewrite S2. apply eqm_eq. ring.
Qed.
Lemma slope_ext l x1 y1 x2 y2 x1' y1' x2' y2' : slope l x1 y1 x2 y2 ->
  x1 ≡ x1' ⟨w⟩ -> y1 ≡ y1' ⟨w⟩ -> x2 ≡ x2' ⟨w⟩ -> y2 ≡ y2' ⟨w⟩ -> slope l x1' y1' x2' y2'.
Proof. intros [S1 S2] E1 E2 E3 E4. split; rewrite <- E1, <- E2, <- E3, <- E4; auto. Qed.

(** No slope through opposite points, so a nonzero point is never neutral. *)
Lemma slope_not_opposite l x y y' : OC (Aff x y) -> slope l x y x y' -> ~ y + y' ≡ 0 ⟨w⟩.
Proof.
  intros (_ & _ & C) [S1 S2] K. rewrite K in S2. change (y * y ≡ x * x * x + b ⟨w⟩) in C.
  assert (X : x ≡ 0 ⟨w⟩).
  { assert (X2 : 3 * (x * x) ≡ 0 ⟨w⟩) by (transitivity (x * x + x * x + x * x); [apply eqm_eq; ring|]; rewrite <- S2; apply eqm_eq; ring).
    apply three_nz in X2. apply eqm_cancel in X2; [|exact P]. tauto. }
  assert (Y : y ≡ 0 ⟨w⟩).
  { apply two_nz. transitivity ((y - y') + (y + y')); [apply eqm_eq; ring|]. rewrite <- S1, K. apply eqm_eq. ring. }
  apply b0. apply (proj1 (eqm_0_iff _ _)). rewrite X, Y in C. transitivity (0 * 0 * 0 + b); [apply eqm_eq; ring|].
  rewrite <- C. apply eqm_eq. ring.
Qed.

Lemma neg_neg p : OC p -> pt_neg w (pt_neg w p) = p.
Proof.
  destruct p as [|x y]; [auto|]. intros (_ & R & _). cbn. f_equal. rewrite <- (Z.mod_small y w) at 2 by lia.
  eqmg. estrip. apply eqm_eq. ring.
Qed.
Lemma neg_inj p q : OC p -> OC q -> pt_neg w p = pt_neg w q -> p = q.
Proof. intros Hp Hq E. rewrite <- (neg_neg p), <- (neg_neg q), E; auto. Qed.

(** Three points on a line, in any order. *)
Lemma add_rotate p q r : OC p -> OC q -> OC r -> ADD p q (pt_neg w r) -> ADD q r (pt_neg w p).
Proof.
  intros Cp Cq Cr H. destruct p as [|x1 y1].
  { inversion H; subst; [|destruct r; [constructor|discriminate]].
    destruct r as [|x y]; [constructor|]. cbn [pt_neg]. apply add_opposite.
    apply (proj1 (eqm_0_iff _ _)). estrip. apply eqm_eq. ring. }
  destruct q as [|x2 y2].
  { assert (E : Aff x1 y1 = pt_neg w r) by (inversion H; subst; auto). rewrite E, neg_neg by auto. constructor. }
  apply add_slope in H; auto. destruct H as [(-> & K & E)|(l & S & E & N)].
  { destruct r; [|discriminate]. replace (pt_neg w (Aff x2 y1)) with (Aff x2 y2); [constructor|].
    cbn. f_equal. destruct Cq as (_ & R & _). rewrite <- (Z.mod_small y2 w) by lia. eqmg.
    apply eqm_sub_0. rewrite <- K. apply eqm_eq. ring. }
  destruct r as [|x3 y3]; [discriminate|]. cbn [pt_neg] in E. unfold third in E. injection E as Ex Ey.
  assert (X : x3 ≡ l * l - x1 - x2 ⟨w⟩) by (rewrite Ex; apply mod_eqm).
  assert (Y : y3 ≡ y1 + l * (x3 - x1) ⟨w⟩).
  { rewrite <- Ex in Ey. change (- y3 ≡ l * (x1 - x3) - y1 ⟨w⟩) in Ey.
    transitivity (- - y3); [apply eqm_eq; ring|]. rewrite Ey. apply eqm_eq. ring. }
  assert (S' : slope l x2 y2 x3 y3).
  { eapply slope_ext; [apply (slope_third w P); exact S| | | |]; try reflexivity; [symmetry; exact X|].
    rewrite Y, X. reflexivity. }
  replace (pt_neg w (Aff x1 y1)) with (third w l x2 y2 x3).
  - apply slope_add; auto. intros (-> & K). revert K. eapply slope_not_opposite; [exact Cq|exact S'].
  - unfold third. cbn [pt_neg]. assert (Z1 : (l * l - x2 - x3) mod w = x1).
    { destruct Cp as (R & _). rewrite <- (Z.mod_small x1 w) by lia. eqmg. rewrite X. apply eqm_eq. ring. }
    rewrite Z1. f_equal. eqmg. apply eqm_sub_0. destruct S as [S1 _].
    transitivity (- (l * (x1 - x2)) * 1 + (y1 - y2) + 2 * (l * (x2 - x1) + (y1 - y2))); [|].
    2:{ transitivity (- (l * (x1 - x2)) + (y1 - y2) + 2 * (- (l * (x1 - x2)) + (y1 - y2))); [apply eqm_eq; ring|].
        rewrite S1. apply eqm_eq. ring. }
    transitivity (- (l * (x1 - x2)) + (y1 - y2)); [apply eqm_eq; ring|].
    symmetry. transitivity (- (l * (x1 - x2)) + (y1 - y2) + 2 * (- (l * (x1 - x2)) + (y1 - y2))); [apply eqm_eq; ring|].
    rewrite S1. apply eqm_eq. ring.
Qed.

Lemma add_neg p q r : OC p -> OC q -> ADD p q r -> ADD (pt_neg w p) (pt_neg w q) (pt_neg w r).
Proof.
  intros Cp Cq H. pose proof (pt_add_on w b P _ _ _ Cp Cq H) as Cr. destruct H; try constructor.
  - apply (proj1 (eqm_0_iff _ _)). estrip. rewrite <- Z.opp_add_distr. apply (proj2 (eqm_0_iff _ _)) in H.
    transitivity (- (y + y')); [apply eqm_eq; ring|]. rewrite H. reflexivity.
  - replace (pt_neg w (third w l x y x)) with (third w (- l) x ((- y) mod w) x).
    + apply add_tangent.
      * intros K. apply H. apply (proj1 (eqm_0_iff _ _)). apply (proj2 (eqm_0_iff _ _)) in K.
        estrip_in K. transitivity (- (2 * - y)); [apply eqm_eq; ring|]. rewrite K. reflexivity.
      * rewrite <- H0. eqmg. estrip. apply eqm_eq. ring.
    + unfold third, pt_neg. replace (- l * - l) with (l * l) by ring. f_equal. eqmg. estrip. apply eqm_eq. ring.
  - replace (pt_neg w (third w l x1 y1 x2)) with (third w (- l) x1 ((- y1) mod w) x2).
    + apply add_chord; [exact H|]. eqmg. change ((x1 - x2) * l ≡ y1 - y2 ⟨w⟩) in H0. estrip.
      transitivity (- ((x1 - x2) * l)); [apply eqm_eq; ring|]. rewrite H0. apply eqm_eq. ring.
    + unfold third, pt_neg. replace (- l * - l) with (l * l) by ring. f_equal. eqmg. estrip. apply eqm_eq. ring.
Qed.

(** p + q = r gives r - q = p. *)
Lemma add_cancel p q r : OC p -> OC q -> ADD p q r -> ADD r (pt_neg w q) p.
Proof.
  intros Cp Cq H. pose proof (pt_add_on w b P _ _ _ Cp Cq H) as Cr.
  rewrite <- (neg_neg p) by auto. rewrite <- (neg_neg r) by auto.
  apply add_neg; [apply pt_neg_on; auto|auto|]. apply (pt_add_comm w b); [auto|apply pt_neg_on; auto|].
  apply add_rotate; auto; [apply pt_neg_on; auto|]. rewrite neg_neg; auto.
Qed.

Lemma third_facts l x1 y1 x2 x y : third w l x1 y1 x2 = Aff x y -> x ≡ l * l - x1 - x2 ⟨w⟩ /\ y ≡ l * (x1 - x) - y1 ⟨w⟩.
Proof. unfold third. intros E. injection E as Ex Ey. split; [rewrite <- Ex; apply mod_eqm|]. rewrite Ex in Ey. rewrite <- Ey. apply mod_eqm. Qed.

(** Associativity. *)
Theorem add_assoc p q r s t u v : OC p -> OC q -> OC r ->
  ADD p q s -> ADD s r u -> ADD q r t -> ADD p t v -> u = v.
Proof.
  intros Cp Cq Cr H1 H2 H3 H4.
  pose proof (pt_add_on w b P _ _ _ Cp Cq H1) as Cs. pose proof (pt_add_on w b P _ _ _ Cq Cr H3) as Ct.
  pose proof (pt_add_on w b P _ _ _ Cs Cr H2) as Cu. pose proof (pt_add_on w b P _ _ _ Cp Ct H4) as Cv.
  assert (FUN := pt_add_fun w b P). assert (COM := pt_add_comm w b).
  assert (IL : forall q s, ADD Inf q s -> s = q) by (intros q' s' K; inversion K; auto).
  assert (IR : forall q s, ADD q Inf s -> s = q) by (intros q' s' K; inversion K; auto).
  destruct p as [|x1 y1].
  { assert (s = q) by (first [apply IL; assumption|apply IR; assumption]). subst s. assert (v = t) by (first [apply IL; assumption|apply IR; assumption]). subst v. exact (FUN _ _ _ _ Cq Cr H2 H3). }
  destruct r as [|x3 y3].
  { assert (u = s) by (first [apply IL; assumption|apply IR; assumption]). subst u. assert (t = q) by (first [apply IL; assumption|apply IR; assumption]). subst t. exact (FUN _ _ _ _ Cp Cq H1 H4). }
  destruct q as [|x2 y2].
  { assert (s = Aff x1 y1) by (first [apply IL; assumption|apply IR; assumption]). subst s. assert (t = Aff x3 y3) by (first [apply IL; assumption|apply IR; assumption]). subst t. exact (FUN _ _ _ _ Cp Cr H2 H4). }
  (* p + q = 0 *)
  destruct s as [|x4 y4].
  { assert (u = Aff x3 y3) by (first [apply IL; assumption|apply IR; assumption]). subst u.
    assert (E : Aff x1 y1 = pt_neg w (Aff x2 y2)).
    { apply add_slope in H1; auto. destruct H1 as [(-> & K & _)|(l & _ & E & _)]; [|discriminate].
      cbn. f_equal. destruct Cp as (_ & R & _). rewrite <- (Z.mod_small y1 w) at 1 by lia. eqmg.
      apply eqm_sub_0. rewrite <- K. apply eqm_eq. ring. }
    pose proof (COM _ _ _ Cq Cr H3) as H3'. pose proof (add_cancel _ _ _ Cr Cq H3') as H5. rewrite <- E in H5.
    apply COM in H5; auto. eapply FUN; [| | exact H5 | exact H4]; auto. }
  destruct t as [|x5 y5].
  { assert (v = Aff x1 y1) by (first [apply IL; assumption|apply IR; assumption]). subst v.
    assert (E : Aff x3 y3 = pt_neg w (Aff x2 y2)).
    { apply add_slope in H3; auto. destruct H3 as [(-> & K & _)|(l & _ & E & _)]; [|discriminate].
      cbn. f_equal. destruct Cr as (_ & R & _). rewrite <- (Z.mod_small y3 w) at 1 by lia. eqmg.
      apply eqm_sub_0. rewrite <- K. apply eqm_eq. ring. }
    pose proof (add_cancel _ _ _ Cp Cq H1) as H5. rewrite <- E in H5. eapply FUN; [| | exact H2 | exact H5]; auto. }
  (* (p + q) + r = 0 *)
  assert (OPP : forall a c : pt, OC a -> OC c -> ADD a c Inf -> a = pt_neg w c).
  { intros a c Ca Cc H. destruct a as [|ax ay], c as [|cx cy]; try (inversion H; subst; reflexivity).
    apply add_slope in H; auto. destruct H as [(-> & K & _)|(l & _ & E & _)]; [|discriminate].
    cbn. f_equal. destruct Ca as (_ & R & _). rewrite <- (Z.mod_small ay w) at 1 by lia. eqmg.
    apply eqm_sub_0. rewrite <- K. apply eqm_eq. ring. }
  destruct u as [|x6 y6].
  { pose proof (OPP _ _ Cs Cr H2) as E. rewrite E in H1. apply add_rotate in H1; auto.
    assert (E' : Aff x5 y5 = pt_neg w (Aff x1 y1)) by (eapply FUN; [| | exact H3 | exact H1]; auto).
    rewrite E' in H4. eapply FUN; [| | | exact H4]; auto; [rewrite <- E'; auto|]. eapply pt_add_neg; eauto. }
  destruct v as [|x7 y7].
  { pose proof (COM _ _ _ Cp Ct H4) as H4'. pose proof (OPP _ _ Ct Cp H4') as E. rewrite E in H3.
    apply add_rotate in H3; auto. apply add_rotate in H3; auto.
    assert (E' : Aff x4 y4 = pt_neg w (Aff x3 y3)) by (eapply FUN; [| | exact H1 | exact H3]; auto).
    rewrite E' in H2. symmetry. eapply FUN; [| | | exact H2]; auto; [rewrite <- E'; auto|].
    apply COM; auto; [rewrite <- E'; auto|]. eapply pt_add_neg; eauto. }
  destruct (add_slope _ _ _ _ _ Cp Cq H1) as [(_ & _ & E)|(l1 & S1 & E1 & N1)]; [discriminate|].
  destruct (add_slope _ _ _ _ _ Cq Cr H3) as [(_ & _ & E)|(l2 & S2 & E2 & N2)]; [discriminate|].
  destruct (add_slope _ _ _ _ _ Cs Cr H2) as [(_ & _ & E)|(l3 & S3 & E3 & N3)]; [discriminate|].
  destruct (add_slope _ _ _ _ _ Cp Ct H4) as [(_ & _ & E)|(l4 & S4 & E4 & N4)]; [discriminate|].
  symmetry in E1, E2, E3, E4. apply third_facts in E1, E2, E3, E4.
  destruct E1 as [X4 Y4], E2 as [X5 Y5], E3 as [X6 Y6], E4 as [X7 Y7].
  assert (NZ : forall a c y y', OC (Aff a y) -> OC (Aff c y') -> ~ (a = c /\ y + y' ≡ 0 ⟨w⟩) -> ~ (a - c ≡ 0 ⟨w⟩) \/ ~ (y + y' ≡ 0 ⟨w⟩)).
  { intros a c y y' (R1 & _) (R2 & _) N. destruct (Z.eq_dec a c) as [->|D]; [right; tauto|left; apply (ne_sub w); auto]. }
  (* sum of slopes, both ways *)
  assert (L : (l1 + l3) * (l1 - l2) ≡ x1 - x3 ⟨w⟩).
  { apply eqm_sub_0. destruct (NZ _ _ _ _ Cs Cr N3) as [N|N].
    - apply (eqm_mul_cancel_l w (x4 - x3)); auto. rewrite Z.mul_0_r. eapply (assoc_x w P); eauto.
    - apply (eqm_mul_cancel_l w (y4 + y3)); auto. rewrite Z.mul_0_r. eapply (assoc_y w P); eauto. }
  assert (Y5' : y5 ≡ l2 * (x3 - x5) - y3 ⟨w⟩).
  { rewrite Y5. destruct S2 as [S2 _]. apply eqm_sub_0. transitivity (l2 * (x2 - x3) - (y2 - y3)); [apply eqm_eq; ring|]. rewrite S2. apply eqm_eq. ring. }
  assert (L' : (l2 + l4) * (l2 - l1) ≡ x3 - x1 ⟨w⟩).
  { apply eqm_sub_0. pose proof (slope_sym _ _ _ _ _ S4) as S4'. destruct (NZ _ _ _ _ Cp Ct N4) as [N|N].
    - apply (eqm_mul_cancel_l w (x5 - x1)); auto.
      + intros K. apply N. transitivity (- (x5 - x1)); [apply eqm_eq; ring|]. rewrite K. reflexivity.
      + rewrite Z.mul_0_r. eapply (assoc_x w P _ y3 x2 y2 _ y1 _ y5); eauto using slope_sym.
        rewrite X5. apply eqm_eq. ring.
    - apply (eqm_mul_cancel_l w (y5 + y1)); auto.
      + intros K. apply N. rewrite <- K. apply eqm_eq. ring.
      + rewrite Z.mul_0_r. eapply (assoc_y w P _ y3 x2 y2 _ y1 x5 _); eauto using slope_sym.
        rewrite X5. apply eqm_eq. ring. }
  destruct (Z.eq_dec ((l1 - l2) mod w) 0) as [D|D].
  { (* then p = r *)
    apply (proj2 (eqm_0_iff _ _)) in D. rewrite D in L. assert (EX : x1 ≡ x3 ⟨w⟩) by (apply eqm_sub_0; rewrite <- L; apply eqm_eq; ring).
    assert (x1 = x3) by (destruct Cp as (? & _), Cr as (? & _); apply (res_eq w); auto). subst x3.
    assert (EY : y1 ≡ y3 ⟨w⟩).
    { destruct S1 as [S1 _], S2 as [S2 _]. assert (D' : l1 ≡ l2 ⟨w⟩) by (apply eqm_sub_0; exact D).
      transitivity (l1 * (x1 - x2) + y2); [rewrite S1; apply eqm_eq; ring|]. rewrite D'.
      transitivity (- (l2 * (x2 - x1)) + y2); [apply eqm_eq; ring|]. rewrite S2. apply eqm_eq. ring. }
    assert (y1 = y3) by (destruct Cp as (_ & ? & _), Cr as (_ & ? & _); apply (res_eq w); auto). subst y3.
    assert (Aff x4 y4 = Aff x5 y5) as E by (eapply FUN; [exact Cp|exact Cq|exact H1|]; apply COM; auto).
    rewrite E in H2. apply COM in H2; auto. eapply FUN; [| | exact H2|exact H4]; auto. }
  assert (D' : ~ l1 - l2 ≡ 0 ⟨w⟩) by (rewrite eqm_0_iff; exact D).
  assert (EL : l3 ≡ l2 + l4 - l1 ⟨w⟩).
  { apply eqm_sub_0. apply (eqm_mul_cancel_l w (l1 - l2)); auto. 
    transitivity ((l1 + l3) * (l1 - l2) + (l2 + l4) * (l2 - l1)); [apply eqm_eq; ring|]. rewrite L, L'. apply eqm_eq. ring. }
  assert (EX : x6 ≡ x7 ⟨w⟩).
  { rewrite X6, X7, X4, X5, EL. apply eqm_sub_0.
    transitivity (- 2 * ((l2 + l4) * (l1 - l2) - (x1 - x3))); [apply eqm_eq; ring|].
    transitivity (2 * ((l2 + l4) * (l2 - l1) - (x3 - x1))); [apply eqm_eq; ring|]. rewrite L'. apply eqm_eq. ring. }
  assert (EY : y6 ≡ y7 ⟨w⟩).
  { rewrite Y6, Y7, <- EX. destruct S1 as [S1 _], S2 as [S2 _], S3 as [S3 _].
    eapply (assoc_yy w P); eauto. }
  assert (x6 = x7) by (destruct Cu as (? & _), Cv as (? & _); apply (res_eq w); auto).
  assert (y6 = y7) by (destruct Cu as (_ & ? & _), Cv as (_ & ? & _); apply (res_eq w); auto).
  congruence.
Qed.
End Group.
