(** The residues modulo a prime as an integral domain, for the tactic [nsatz]; the
    wrappers keep its reification away from literals of Z. *)
From Verif Require Import Prelude ModArith.
From Coq Require Import NsatzTactic.
Definition F := Z.
Definition F0 : F := 0. Definition F1 : F := 1.
Definition Fadd : F -> F -> F := Z.add. Definition Fmul : F -> F -> F := Z.mul.
Definition Fsub : F -> F -> F := Z.sub. Definition Fopp : F -> F := Z.opp.
Section Sz.
Variable w : Z.
Hypothesis P : prime w.
Definition Feq : F -> F -> Prop := eqm w.
Instance F_ops : @Ring_ops F F0 F1 Fadd Fmul Fsub Fopp Feq := {}.
Instance F_ring : Ring (Ro := F_ops).
Proof.
  split; unfold equality, eq_notation, addition, add_notation, multiplication, mul_notation, subtraction, sub_notation, opposite, opp_notation, zero, zero_notation, one, one_notation, Feq, Fadd, Fmul, Fsub, Fopp, F, F0, F1;
  try exact _; try exact (eqm_equiv w); try exact (eqm_add w); try exact (eqm_mul w); try exact (eqm_sub w); try exact (eqm_opp w); intros; try (apply eqm_eq; ring). all: first [apply eqm_eq; apply Z.mul_1_r | apply eqm_eq; apply Z.add_opp_diag_r | apply eqm_eq; apply Z.add_0_l | apply eqm_eq; apply Z.mul_1_l | idtac].
Qed.
Instance F_cring : Cring (Rr := F_ring).
Proof. intros x y.  unfold equality, eq_notation, multiplication, mul_notation, Feq, Fmul. apply eqm_eq. apply Z.mul_comm. Qed.
Instance F_dom : Integral_domain (Rcr := F_cring).
Proof.
  split; cbn; unfold equality, eq_notation, zero, one, zero_notation, one_notation, multiplication, mul_notation, Feq, Fmul, F0, F1, F; cbn.
  - intros x y H. apply eqm_0_iff in H. pose proof (prime_ge_2 w P). apply Z.mod_divide in H; [|lia].
    apply prime_mult in H; auto. destruct H as [H|H]; [left|right]; apply eqm_0_iff, Z.mod_divide; auto; lia.
  - intros H. pose proof (prime_ge_2 w P). apply (eqm_small w 1 0) in H; [discriminate|lia|lia].
Qed.

Ltac toF := repeat match goal with
  | H : context [eqm w ?a ?b] |- _ => progress change (eqm w a b) with (Feq a b) in H
  | |- context [eqm w ?a ?b] => progress change (eqm w a b) with (Feq a b) end;
  repeat match goal with H : Feq _ _ |- _ => revert H end;
  change Z.add with Fadd; change Z.mul with Fmul; change Z.sub with Fsub; change Z.opp with Fopp;
  change 0 with F0; change 3 with (Fadd F1 (Fadd F1 F1)); change 2 with (Fadd F1 F1); change 1 with F1.
(** Prove an equation modulo the prime w from those in the context. *)
Ltac nz := toF; nsatz.

Lemma chord_id x1 y1 x2 y2 l b :
  y1 * y1 ≡ x1 * x1 * x1 + b ⟨w⟩ -> y2 * y2 ≡ x2 * x2 * x2 + b ⟨w⟩ -> (x1 - x2) * l ≡ y1 - y2 ⟨w⟩ ->
  (x1 - x2) * ((l * (x1 - (l * l - x1 - x2)) - y1) * (l * (x1 - (l * l - x1 - x2)) - y1)) ≡
  (x1 - x2) * ((l * l - x1 - x2) * (l * l - x1 - x2) * (l * l - x1 - x2) + b) ⟨w⟩.
Proof. intros. nz. Qed.
Lemma tangent_id x y l b :
  y * y ≡ x * x * x + b ⟨w⟩ -> 2 * y * l ≡ 3 * x * x ⟨w⟩ ->
  (l * (x - (l * l - x - x)) - y) * (l * (x - (l * l - x - x)) - y) ≡
  (l * l - x - x) * (l * l - x - x) * (l * l - x - x) + b ⟨w⟩.
Proof. intros. nz. Qed.

(** [l] is the slope of the line through two points of the curve, chord or tangent:
    both equations hold in both cases. *)
Definition slope (l x1 y1 x2 y2 : Z) : Prop :=
  l * (x1 - x2) ≡ y1 - y2 ⟨w⟩ /\ l * (y1 + y2) ≡ x1 * x1 + x1 * x2 + x2 * x2 ⟨w⟩.

Lemma assoc_x x1 y1 x2 y2 x3 y3 x4 y4 l1 l2 l3 :
  slope l1 x1 y1 x2 y2 -> slope l2 x2 y2 x3 y3 -> slope l3 x4 y4 x3 y3 ->
  x4 ≡ l1 * l1 - x1 - x2 ⟨w⟩ -> y4 ≡ l1 * (x1 - x4) - y1 ⟨w⟩ ->
  (x4 - x3) * ((l1 + l3) * (l1 - l2) - (x1 - x3)) ≡ 0 ⟨w⟩.
Proof. intros [A1 A2] [B1 B2] [C1 C2] D E. nz. Qed.
Lemma assoc_y x1 y1 x2 y2 x3 y3 x4 y4 l1 l2 l3 :
  slope l1 x1 y1 x2 y2 -> slope l2 x2 y2 x3 y3 -> slope l3 x4 y4 x3 y3 ->
  x4 ≡ l1 * l1 - x1 - x2 ⟨w⟩ -> y4 ≡ l1 * (x1 - x4) - y1 ⟨w⟩ ->
  (y4 + y3) * ((l1 + l3) * (l1 - l2) - (x1 - x3)) ≡ 0 ⟨w⟩.
Proof. intros [A1 A2] [B1 B2] [C1 C2] D E. nz. Qed.
Lemma slope_third x1 y1 x2 y2 l :
  slope l x1 y1 x2 y2 -> slope l x2 y2 (l * l - x1 - x2) (y1 + l * (l * l - x1 - x2 - x1)).
Proof. intros [A1 A2]. split; nz. Qed.
Lemma assoc_yy x1 y1 x2 y2 x3 y3 x4 y4 l1 l2 l3 l4 X :
  l1 * (x1 - x2) ≡ y1 - y2 ⟨w⟩ -> l2 * (x2 - x3) ≡ y2 - y3 ⟨w⟩ -> l3 * (x4 - x3) ≡ y4 - y3 ⟨w⟩ ->
  x4 ≡ l1 * l1 - x1 - x2 ⟨w⟩ -> y4 ≡ l1 * (x1 - x4) - y1 ⟨w⟩ -> X ≡ l3 * l3 - x4 - x3 ⟨w⟩ ->
  (l1 + l3) * (l1 - l2) ≡ x1 - x3 ⟨w⟩ -> l3 ≡ l2 + l4 - l1 ⟨w⟩ ->
  l3 * (x4 - X) - y4 ≡ l4 * (x1 - X) - y1 ⟨w⟩.
Proof. intros. nz. Qed.
End Sz.
