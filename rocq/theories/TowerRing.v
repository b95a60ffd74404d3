(** Ring structure of the tower over the integers, congruence modulo w, powers. *)
From Coq Require Import ZArith Lia Ring Setoid Morphisms.
From Verif Require Import ModArith SpecTower.
Local Open Scope Z_scope.

Ltac unf2 := unfold zero2, one2, add2, sub2, neg2, mul2, conj2, zero6, one6, add6, sub6, neg6, mul6, v6,
  zero12, one12, add12, sub12, neg12, mul12, conj12 in *.

Lemma F2_ring : ring_theory zero2 one2 add2 mul2 sub2 neg2 (@eq F2).
Proof.
  constructor; repeat intros [? ?]; unfold zero2, one2, add2, sub2, neg2, mul2; apply f_equal2; ring.
Qed.
Add Ring F2r : F2_ring.

Lemma pair_eq {X Y} (a a' : X) (b b' : Y) : a = a' -> b = b' -> (a, b) = (a', b').
Proof. congruence. Qed.
Ltac peq := repeat apply pair_eq.

Section Xi.
Variable xi : F2.
Lemma F6_ring : ring_theory zero6 one6 add6 (mul6 xi) sub6 neg6 (@eq F6).
Proof.
  constructor; repeat intros [[? ?] ?]; unfold zero6, one6, add6, sub6, neg6, mul6; peq; ring.
Qed.
Add Ring F6r : F6_ring.
Lemma F12_ring : ring_theory zero12 one12 add12 (mul12 xi) sub12 neg12 (@eq F12).
Proof.
  constructor; repeat intros [? ?]; unfold zero12, one12, add12, sub12, neg12, mul12; peq; ring.
Qed.
End Xi.

(** ** Congruence *)
Section Cong.
Variable w : Z.
Global Instance eq2_equiv : Equivalence (eq2 w).
Proof.
  unfold eq2. constructor; [intros x; auto|intros x y [H1 H2]; auto|].
  intros x y z [H1 H2] [H3 H4]. split; congruence.
Qed.
Global Instance eq6_equiv : Equivalence (eq6 w).
Proof.
  unfold eq6. constructor; [intros [[? ?] ?]|intros [[? ?] ?] [[? ?] ?] (H1 & H2 & H3)|
    intros [[? ?] ?] [[? ?] ?] [[? ?] ?] (H1 & H2 & H3) (H4 & H5 & H6)];
    repeat split; try reflexivity; try (symmetry; (apply H1 || apply H2 || apply H3)); etransitivity;
    ((apply H1 || apply H2 || apply H3) || (apply H4 || apply H5 || apply H6)).
Qed.
Global Instance eq12_equiv : Equivalence (eq12 w).
Proof.
  unfold eq12. constructor; [intros [? ?]|intros [? ?] [? ?] [? ?]|intros [? ?] [? ?] [? ?] [? ?] [? ?]];
    cbn [fst snd] in *; split; try reflexivity; try (symmetry; assumption); etransitivity; eassumption.
Qed.
Lemma eq2_intro a b c d : a ≡ c ⟨w⟩ -> b ≡ d ⟨w⟩ -> eq2 w (a, b) (c, d).
Proof. intros H1 H2. split; assumption. Qed.
Lemma eq2_elim a b c d : eq2 w (a, b) (c, d) -> a ≡ c ⟨w⟩ /\ b ≡ d ⟨w⟩.
Proof. intros [H1 H2]. split; assumption. Qed.
Lemma eq6_intro a b c d e f : eq2 w a d -> eq2 w b e -> eq2 w c f -> eq6 w (a, b, c) (d, e, f).
Proof. intros; repeat split; (apply H || apply H0 || apply H1). Qed.

Ltac e2 := repeat match goal with x : F2 |- _ => destruct x | x : (Z * Z)%type |- _ => destruct x end;
  repeat match goal with H : eq2 _ (_, _) (_, _) |- _ => apply eq2_elim in H as [? ?] end;
  apply eq2_intro.
Ltac rw := repeat match goal with H : _ ≡ _ ⟨w⟩ |- _ => rewrite H; clear H end; reflexivity.
Global Instance add2_proper : Proper (eq2 w ==> eq2 w ==> eq2 w) add2.
Proof. intros x x' Hx y y' Hy. e2; rw. Qed.
Global Instance sub2_proper : Proper (eq2 w ==> eq2 w ==> eq2 w) sub2.
Proof. intros x x' Hx y y' Hy. e2; rw. Qed.
Global Instance mul2_proper : Proper (eq2 w ==> eq2 w ==> eq2 w) mul2.
Proof. intros x x' Hx y y' Hy. e2; rw. Qed.
Global Instance neg2_proper : Proper (eq2 w ==> eq2 w) neg2.
Proof. intros x x' Hx. e2; rw. Qed.
Global Instance conj2_proper : Proper (eq2 w ==> eq2 w) conj2.
Proof. intros x x' Hx. e2; rw. Qed.

Ltac e6 := repeat match goal with x : F6 |- _ => destruct x as [[? ?] ?] end;
  repeat match goal with H : eq6 _ _ _ |- _ => destruct H as (? & ? & ?) end; unfold eq6.
Ltac rw2 := repeat match goal with H : eq2 w _ _ |- _ => rewrite H; clear H end; reflexivity.
Ltac s6 := split; [|split].
Global Instance add6_proper : Proper (eq6 w ==> eq6 w ==> eq6 w) add6.
Proof. intros x x' Hx y y' Hy. e6. unfold add6. s6; rw2. Qed.
Global Instance sub6_proper : Proper (eq6 w ==> eq6 w ==> eq6 w) sub6.
Proof. intros x x' Hx y y' Hy. e6. unfold sub6. s6; rw2. Qed.
Global Instance neg6_proper : Proper (eq6 w ==> eq6 w) neg6.
Proof. intros x x' Hx. e6. unfold neg6. s6; rw2. Qed.
Global Instance mul6_proper : Proper (eq2 w ==> eq6 w ==> eq6 w ==> eq6 w) mul6.
Proof. intros k k' Hk x x' Hx y y' Hy. e6. unfold mul6. s6; rw2. Qed.

Ltac e12 := repeat match goal with x : F12 |- _ => destruct x as [? ?] end;
  repeat match goal with H : eq12 _ _ _ |- _ => destruct H as (? & ?) end; cbn [fst snd] in *; unfold eq12.
Ltac rw6 := cbn [fst snd]; repeat match goal with H : eq6 w _ _ |- _ => rewrite H; clear H end; reflexivity.
Global Instance add12_proper : Proper (eq12 w ==> eq12 w ==> eq12 w) add12.
Proof. intros x x' Hx y y' Hy. e12. unfold add12. split; rw6. Qed.
Global Instance sub12_proper : Proper (eq12 w ==> eq12 w ==> eq12 w) sub12.
Proof. intros x x' Hx y y' Hy. e12. unfold sub12. split; rw6. Qed.
Global Instance neg12_proper : Proper (eq12 w ==> eq12 w) neg12.
Proof. intros x x' Hx. e12. unfold neg12. split; rw6. Qed.
Global Instance conj12_proper : Proper (eq12 w ==> eq12 w) conj12.
Proof. intros x x' Hx. e12. unfold conj12. split; rw6. Qed.
Global Instance mul12_proper k : Proper (eq12 w ==> eq12 w ==> eq12 w) (mul12 k).
Proof. intros x x' Hx y y' Hy. e12. unfold mul12. split; rw6. Qed.
End Cong.

(** ** Powers in a commutative ring *)
Section Pow.
Context {R : Type} {zero one : R} {add mul sub : R -> R -> R} {neg : R -> R}.
Hypothesis RT : ring_theory zero one add mul sub neg (@eq R).
Add Ring Rr : RT.
Definition pw (x : R) (n : Z) : R := Z.iter n (mul x) one.
Lemma pw_0 x : pw x 0 = one. Proof. reflexivity. Qed.
Lemma pw_neg x n : n < 0 -> pw x n = one. Proof. destruct n; try lia. reflexivity. Qed.
Lemma pw_succ x n : 0 <= n -> pw x (Z.succ n) = mul x (pw x n).
Proof.
  intros H. unfold pw. destruct n as [|p|p]; [reflexivity| |lia].
  cbn [Z.succ Z.add Z.iter]. rewrite Pos.add_1_r, Pos.iter_succ. reflexivity.
Qed.
Lemma pw_1 x : pw x 1 = x.
Proof. change 1 with (Z.succ 0). rewrite pw_succ, pw_0 by lia. ring. Qed.
Lemma pw_add x m n : 0 <= m -> 0 <= n -> pw x (m + n) = mul (pw x m) (pw x n).
Proof.
  intros H. revert n. pattern m. apply natlike_ind; [|clear m H|exact H].
  - intros n Hn. rewrite Z.add_0_l, pw_0. ring.
  - intros m Hm IH n Hn. rewrite Z.add_succ_l, !pw_succ, IH by lia. ring.
Qed.
Lemma pw_mul x m n : 0 <= m -> 0 <= n -> pw x (m * n) = pw (pw x m) n.
Proof.
  intros H Hn. pattern n. apply natlike_ind; [|clear n Hn|exact Hn].
  - rewrite Z.mul_0_r. reflexivity.
  - intros n Hn IH. rewrite Z.mul_succ_r, pw_add, IH, pw_succ by lia. ring.
Qed.
Lemma pw_one n : pw one n = one.
Proof.
  destruct (Z_lt_le_dec n 0) as [L|L]; [apply pw_neg, L|].
  pattern n. apply natlike_ind; [reflexivity| |exact L]. intros m Hm IH. rewrite pw_succ, IH by lia. ring.
Qed.
Lemma pw_mul_base x y n : pw (mul x y) n = mul (pw x n) (pw y n).
Proof.
  destruct (Z_lt_le_dec n 0) as [L|L]; [rewrite !pw_neg by exact L; ring|].
  pattern n. apply natlike_ind; [rewrite !pw_0; ring| |exact L].
  intros m Hm IH. rewrite !pw_succ, IH by lia. ring.
Qed.
Lemma pw_2 x : pw x 2 = mul x x.
Proof. change 2 with (1 + 1). rewrite pw_add, pw_1 by lia. reflexivity. Qed.
End Pow.
