(** SPECIFICATION of the extension fields: schoolbook arithmetic of
    Z[u]/(u^2+1), [v]/(v^3-xi), [z]/(z^2-v) on integer coordinates, and congruence
    of all coordinates modulo w.  An element of F_w12 is a vector of twelve
    integers modulo w.  Nothing here depends on how the gadgets work. *)
From Coq Require Import ZArith.
Local Open Scope Z_scope.

(** a + b u *)
Definition F2 : Type := Z * Z.
(** a + b v + c v^2 *)
Definition F6 : Type := F2 * F2 * F2.
(** a + b z *)
Definition F12 : Type := F6 * F6.

Definition zero2 : F2 := (0, 0).
Definition one2 : F2 := (1, 0).
Definition add2 (x y : F2) : F2 := let '(a, b) := x in let '(c, d) := y in (a + c, b + d).
Definition sub2 (x y : F2) : F2 := let '(a, b) := x in let '(c, d) := y in (a - c, b - d).
Definition neg2 (x : F2) : F2 := let '(a, b) := x in (- a, - b).
(** u^2 = -1 *)
Definition mul2 (x y : F2) : F2 := let '(a, b) := x in let '(c, d) := y in (a * c - b * d, a * d + b * c).
Definition conj2 (x : F2) : F2 := let '(a, b) := x in (a, - b).

Definition zero6 : F6 := (zero2, zero2, zero2).
Definition one6 : F6 := (one2, zero2, zero2).
Definition add6 (x y : F6) : F6 :=
  let '(a, b, c) := x in let '(d, e, f) := y in (add2 a d, add2 b e, add2 c f).
Definition sub6 (x y : F6) : F6 :=
  let '(a, b, c) := x in let '(d, e, f) := y in (sub2 a d, sub2 b e, sub2 c f).
Definition neg6 (x : F6) : F6 := let '(a, b, c) := x in (neg2 a, neg2 b, neg2 c).
(** v^3 = xi *)
Definition mul6 (xi : F2) (x y : F6) : F6 :=
  let '(a, b, c) := x in let '(d, e, f) := y in
  (add2 (mul2 a d) (mul2 xi (add2 (mul2 b f) (mul2 c e))),
   add2 (add2 (mul2 a e) (mul2 b d)) (mul2 xi (mul2 c f)),
   add2 (add2 (mul2 a f) (mul2 b e)) (mul2 c d)).
(** The element v. *)
Definition v6 : F6 := (zero2, one2, zero2).

Definition zero12 : F12 := (zero6, zero6).
Definition one12 : F12 := (one6, zero6).
Definition add12 (x y : F12) : F12 := let '(a, b) := x in let '(c, d) := y in (add6 a c, add6 b d).
Definition sub12 (x y : F12) : F12 := let '(a, b) := x in let '(c, d) := y in (sub6 a c, sub6 b d).
Definition neg12 (x : F12) : F12 := let '(a, b) := x in (neg6 a, neg6 b).
(** z^2 = v *)
Definition mul12 (xi : F2) (x y : F12) : F12 :=
  let '(a, b) := x in let '(c, d) := y in
  (add6 (mul6 xi a c) (mul6 xi v6 (mul6 xi b d)), add6 (mul6 xi a d) (mul6 xi b c)).
Definition conj12 (x : F12) : F12 := let '(a, b) := x in (a, neg6 b).

(** x^n, n >= 0: multiply by x n times. *)
Definition pow2 (x : F2) (n : Z) : F2 := Z.iter n (mul2 x) one2.
Definition pow6 (xi : F2) (x : F6) (n : Z) : F6 := Z.iter n (mul6 xi x) one6.
Definition pow12 (xi : F2) (x : F12) (n : Z) : F12 := Z.iter n (mul12 xi x) one12.

(** Equality of field elements: congruence modulo w in every coordinate. *)
Definition eq2 (w : Z) (x y : F2) : Prop := fst x mod w = fst y mod w /\ snd x mod w = snd y mod w.
Definition eq6 (w : Z) (x y : F6) : Prop :=
  let '(a, b, c) := x in let '(d, e, f) := y in eq2 w a d /\ eq2 w b e /\ eq2 w c f.
Definition eq12 (w : Z) (x y : F12) : Prop := eq6 w (fst x) (fst y) /\ eq6 w (snd x) (snd y).

(** The cyclotomic subgroup of F_p12: elements of order dividing p^4 - p^2 + 1. *)
Definition cyclotomic (p : Z) (xi : F2) (x : F12) : Prop :=
  eq12 p (pow12 xi x (p ^ 4 - p ^ 2 + 1)) one12.

(** xi of the two towers: 9 + u for bn256, 1 + u for bls12-381. *)
Definition bn_xi : F2 := (9, 1).
Definition bls_xi : F2 := (1, 1).
