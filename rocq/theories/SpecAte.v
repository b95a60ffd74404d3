(** SPECIFICATION of the point steps and of the ate pairings, in affine coordinates
    over F_w2: slopes, chord-and-tangent points, lines, and the list of lines of a
    Miller loop.  Nothing here depends on the Jacobian formulas of the gadgets. *)
From Coq Require Import ZArith List.
From Verif Require Import SpecTower SpecPairing.
Import ListNotations.
Local Open Scope Z_scope.

(** An affine point (x, y). *)
Definition G2 : Type := F2 * F2.
Definition neg_pt (P : G2) : G2 := (fst P, neg2 (snd P)).

Section Ate.
Variable w : Z.

(** lam is the slope of the tangent at P (2 y lam = 3 x^2), of the chord P Q
    ((xQ - xP) lam = yQ - yP). *)
Definition tangent (P : G2) (lam : F2) : Prop :=
  eq2 w (mul2 (smul2 2 (snd P)) lam) (smul2 3 (mul2 (fst P) (fst P))).
Definition chord (P Q : G2) (lam : F2) : Prop :=
  eq2 w (mul2 (sub2 (fst Q) (fst P)) lam) (sub2 (snd Q) (snd P)).
(** The sum of P and Q when lam is the slope: x3 = lam^2 - xP - xQ,
    y3 = lam (xP - x3) - yP. *)
Definition sum_by (lam : F2) (P Q : G2) : G2 :=
  let x3 := sub2 (sub2 (mul2 lam lam) (fst P)) (fst Q) in
  (x3, sub2 (mul2 lam (sub2 (fst P) x3)) (snd P)).
(** The line through P with slope lam: y - lam x + (lam xP - yP) as coefficients of
    y, x and 1. *)
Definition line_by (lam : F2) (P : G2) : F6 := (one2, neg2 lam, sub2 (mul2 lam (fst P)) (snd P)).
(** Jacobian coordinates (X, Y, Z) of an affine point: X = x Z^2, Y = y Z^3. *)
Definition jacobian (X : F6) (P : G2) : Prop :=
  let '(x, y, z) := X in
  eq2 w x (mul2 (fst P) (mul2 z z)) /\ eq2 w y (mul2 (snd P) (mul2 z (mul2 z z))).
(** All three coefficients multiplied by k. *)
Definition scale (k : F2) (l : F6) : F6 := let '(a, b, c) := l in (mul2 k a, mul2 k b, mul2 k c).

(** [steps Q ds T T' ls]: double-and-add from T along the digits ds (most significant
    first; 1 adds Q, -1 subtracts it), reaching T', never with a vertical line; ls
    are the tangent and chord lines, in order. *)
Inductive steps (Q : G2) : list Z -> G2 -> G2 -> list F6 -> Prop :=
| steps_nil T : steps Q [] T T []
| steps_zero ds T T' lam ls :
    ~ eq2 w (snd T) zero2 -> tangent T lam ->
    steps Q ds (sum_by lam T T) T' ls ->
    steps Q (0 :: ds) T T' (line_by lam T :: ls)
| steps_add d ds T T' lam mu ls :
    d = 1 \/ d = -1 ->
    let D := sum_by lam T T in
    let R := if d =? 1 then Q else neg_pt Q in
    ~ eq2 w (snd T) zero2 -> tangent T lam ->
    ~ eq2 w (fst D) (fst R) -> chord D R mu ->
    steps Q ds (sum_by mu D R) T' ls ->
    steps Q (d :: ds) T T' (line_by lam T :: line_by mu R :: ls).

(** The Frobenius endomorphism carried to the sextic twist with xi. *)
Definition twist_frobenius (xi : F2) (P : G2) : G2 :=
  (mul2 (pow2 (fst P) w) (pow2 xi ((w - 1) / 3)), mul2 (pow2 (snd P) w) (pow2 xi ((w - 1) / 2))).

(** Lines of the optimal ate pairing on bn curves: the steps for 6u+2, then the chords
    to pi(Q) and to -pi(pi(Q)). *)
Definition bn_ate_lines (digits : list Z) (Q : G2) (ls : list F6) : Prop :=
  exists T l1 mu nu, steps Q digits Q T l1 /\
    let Q1 := twist_frobenius bn_xi Q in
    let Q2 := neg_pt (twist_frobenius bn_xi Q1) in
    ~ eq2 w (fst T) (fst Q1) /\ chord T Q1 mu /\
    let R := sum_by mu T Q1 in
    ~ eq2 w (fst R) (fst Q2) /\ chord R Q2 nu /\
    ls = l1 ++ [line_by mu Q1; line_by nu Q2].
(** Lines of the ate pairing on bls12-381: the steps for |x|/2, then one tangent. *)
Definition bls_ate_lines (bits : list bool) (Q : G2) (ls : list F6) : Prop :=
  exists T l1 lam, steps Q (map (fun b : bool => if b then 1 else 0) bits) Q T l1 /\
    ~ eq2 w (snd T) zero2 /\ tangent T lam /\ ls = l1 ++ [line_by lam T].
End Ate.

(** The value of digits (most significant first) below a leading one. *)
Definition digits_value (ds : list Z) : Z := fold_left (fun a d => 2 * a + d) ds 1.
(** The parameters u of bn256 and x of bls12-381. *)
Definition bn_u : Z := 4965661367192848881.
Definition bls_x : Z := - 15132376222941642752.
(** Signed digits of 6u+2 below the leading one, and the bits of |x|/2 below the leading
    one, most significant first. *)
Definition bn_digits : list Z :=
  [1; 0; 1; 0; 0; (-1); 0; 1; 1; 0; 0; 0; (-1); 0; 0; 1; 1; 0; 0; (-1); 0; 0; 0; 0; 0; 1; 0; 0; (-1); 0; 0; 1; 1; 1; 0; 0; 0; 0; (-1); 0; 1; 0; 0; (-1); 0; 1; 1; 0; 0; 1; 0; 0; (-1); 1; 0; 0; (-1); 0; 1; 0; 1; 0; 0; 0].
Definition bls_digits : list bool :=
  map (fun d => d =? 1)
    [1; 0; 1; 0; 0; 1; 0; 0; 0; 0; 0; 0; 0; 0; 1; 0; 0; 0; 0; 0; 0; 0; 0; 0; 0; 0; 0; 0; 0; 0; 0; 0; 0; 0; 0; 0; 0; 0; 0; 0; 0; 0; 0; 0; 0; 0; 1; 0; 0; 0; 0; 0; 0; 0; 0; 0; 0; 0; 0; 0; 0; 0].
