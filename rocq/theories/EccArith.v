(** The arithmetic of the point gadgets on residues and bits, independent of
    circuits: what the selected coordinates amount to in terms of [pt_add]. *)
From Verif Require Import Prelude FieldZ ModArith SpecEcc Curve.

Section EccArith.
Variable w b : Z.
Hypothesis P : prime w.

(** The point that residues x, y and identity flag z stand for. *)
Definition dec (x y : Z) (z : bool) : pt := if z then Inf else Aff (x mod w) (y mod w).

Lemma dec_ext x y z x' y' : x ≡ x' ⟨w⟩ -> y ≡ y' ⟨w⟩ -> dec x y z = dec x' y' z.
Proof. intros Hx Hy. unfold dec. rewrite Hx, Hy. reflexivity. Qed.

Definition lam_x (l x1 x2 : Z) : Z := l * l - x1 - x2.
Definition lam_y (l x1 y1 x2 : Z) : Z := (x1 - lam_x l x1 x2) * l - y1.

Lemma third_dec l x1 y1 x2 :
  third w l (x1 mod w) (y1 mod w) (x2 mod w) = dec (lam_x l x1 x2) (lam_y l x1 y1 x2) false.
Proof.
  unfold third, dec, lam_y, lam_x. f_equal.
  - match goal with |- ?a mod w = ?b mod w => change (a ≡ b ⟨w⟩) end. estrip. apply eqm_eq. ring.
  - match goal with |- ?a mod w = ?b mod w => change (a ≡ b ⟨w⟩) end. estrip. apply eqm_eq. ring.
Qed.

(** A tangent slope with its flag, as cached with a point (x, y). *)
Definition tangent_ok (x y l : Z) (k : bool) : Prop :=
  k = ((2 * y) mod w =? 0) /\ (k = false -> 2 * y * l ≡ 3 * x * x ⟨w⟩).

Lemma mod2 y : (2 * (y mod w)) mod w = (2 * y) mod w.
Proof. change (2 * (y mod w) ≡ 2 * y ⟨w⟩). estrip. reflexivity. Qed.

Lemma double_dec x y z l k :
  (z = false -> tangent_ok x y l k) ->
  pt_add w (dec x y z) (dec x y z) (dec (lam_x l x x) (lam_y l x y x) (if z then z else k)).
Proof.
  intros T. destruct z; [constructor|]. destruct (T eq_refl) as [Hk Hl]. destruct k.
  - symmetry in Hk. apply Z.eqb_eq in Hk. cbn [dec]. unfold dec. apply add_opposite.
    rewrite <- mod2 in Hk. rewrite <- Hk. f_equal. ring.
  - symmetry in Hk. apply Z.eqb_neq in Hk. rewrite <- third_dec. unfold dec. apply add_tangent.
    + rewrite mod2. exact Hk.
    + specialize (Hl eq_refl).
      match goal with |- ?a mod w = ?b mod w => change (a ≡ b ⟨w⟩) end. estrip. exact Hl.
Qed.

Lemma sub_mod0 x y : ((x - y) mod w =? 0) = (x mod w =? y mod w).
Proof.
  apply Bool.eq_iff_eq_true. rewrite !Z.eqb_eq, <- eqm_0_iff, <- eqm_sub_0. reflexivity.
Qed.

Lemma add_dec x1 y1 z1 l1 k1 x2 y2 z2 q :
  on_curve w b (dec x1 y1 z1) -> on_curve w b (dec x2 y2 z2) ->
  (z1 = false -> tangent_ok x1 y1 l1 k1) ->
  ((x1 - x2) mod w <> 0 -> (x1 - x2) * q ≡ y1 - y2 ⟨w⟩) ->
  let xe := (x1 - x2) mod w =? 0 in
  let ye := (y1 - y2) mod w =? 0 in
  let l := if xe && ye then l1 else q in
  let k := if xe && ye then k1 else xe in
  pt_add w (dec x1 y1 z1) (dec x2 y2 z2)
    (dec (if z2 then x1 else if z1 then x2 else lam_x l x1 x2)
         (if z2 then y1 else if z1 then y2 else lam_y l x1 y1 x2)
         (if z2 then z1 else if z1 then z2 else k)).
Proof.
  intros C1 C2 T Q. cbv zeta. destruct z2; [constructor|]. destruct z1; [constructor|].
  rewrite !sub_mod0. specialize (T eq_refl).
  destruct (x1 mod w =? x2 mod w) eqn:Ex; cbn [andb].
  - apply Z.eqb_eq in Ex. destruct (y1 mod w =? y2 mod w) eqn:Ey.
    + apply Z.eqb_eq in Ey.
      assert (E : dec x2 y2 false = dec x1 y1 false) by (unfold dec; rewrite Ex, Ey; reflexivity).
      rewrite E.
      assert (F : dec (lam_x l1 x1 x2) (lam_y l1 x1 y1 x2) k1 = dec (lam_x l1 x1 x1) (lam_y l1 x1 y1 x1) k1).
      { change (x1 ≡ x2 ⟨w⟩) in Ex. apply dec_ext; unfold lam_y, lam_x; rewrite <- Ex; reflexivity. }
      rewrite F. apply (double_dec x1 y1 false). auto.
    + apply Z.eqb_neq in Ey. unfold dec in *. rewrite <- Ex in *. apply add_opposite.
      destruct (same_x w b P _ _ _ C1 C2) as [K|K]; [contradiction|exact K].
  - apply Z.eqb_neq in Ex. rewrite <- third_dec. unfold dec. apply add_chord; [exact Ex|].
    match goal with |- ?a mod w = ?b mod w => change (a ≡ b ⟨w⟩) end. estrip. apply Q.
    intros K. apply Ex. apply eqm_0_iff in K. apply eqm_sub_0 in K. exact K.
Qed.

Lemma neg_dec x y z : dec x (- y) z = pt_neg w (dec x y z).
Proof.
  destruct z; [reflexivity|]. unfold dec, pt_neg. f_equal.
  match goal with |- ?a mod w = ?b mod w => change (a ≡ b ⟨w⟩) end. estrip. reflexivity.
Qed.

(** Equality test of [ecc_assert_equal]. *)
Lemma equal_dec x1 y1 z1 x2 y2 z2 :
  ((x1 - x2) mod w =? 0) && ((y1 - y2) mod w =? 0) && Bool.eqb z1 z2 || z1 && z2 = true
  <-> dec x1 y1 z1 = dec x2 y2 z2.
Proof.
  rewrite !sub_mod0. split.
  - rewrite Bool.orb_true_iff, !Bool.andb_true_iff, !Z.eqb_eq, Bool.eqb_true_iff.
    intros [((Ex & Ey) & ->)|[-> ->]]; [|reflexivity]. unfold dec. rewrite Ex, Ey. reflexivity.
  - unfold dec. destruct z1, z2; intros E; try discriminate; [apply Bool.orb_true_r|]. injection E as -> ->.
    rewrite !Z.eqb_refl. reflexivity.
Qed.
End EccArith.
