(** SPECIFICATION of the Miller loops: how the prepared line coefficients are used.
    A pair is an affine point (x, y) of G1 and the list of line coefficients
    (triples over F_w2) prepared from its point of G2.  Coefficient number j of every
    pair is used at the same time; [j] only ever grows by one. *)
From Coq Require Import ZArith List.
From Verif Require Import SpecTower.
Import ListNotations.
Local Open Scope Z_scope.

(** Multiplication of an element of F_w2 by an integer. *)
Definition smul2 (k : Z) (x : F2) : F2 := let '(a, b) := x in (a * k, b * k).

(** The line (c0, c1, c2) at the point (x, y): for bn256 the element
    c0 y + (c1 x) z + c2 v z, for bls12-381 the element c2 + (c1 x) v + (c0 y) v z. *)
Definition bn_line (c : F6) (P : Z * Z) : F12 :=
  let '(c0, c1, c2) := c in ((smul2 (snd P) c0, zero2, zero2), (smul2 (fst P) c1, c2, zero2)).
Definition bls_line (c : F6) (P : Z * Z) : F12 :=
  let '(c0, c1, c2) := c in ((c2, smul2 (fst P) c1, zero2), (zero2, smul2 (snd P) c0, zero2)).

Section Miller.
Variable xi : F2.
Variable line : F6 -> Z * Z -> F12.

(** Product over the pairs of the lines with number j. *)
Fixpoint lines (terms : list ((Z * Z) * list F6)) (j : nat) : F12 :=
  match terms with
  | [] => one12
  | (P, cs) :: rest => mul12 xi (line (nth j cs zero6) P) (lines rest j)
  end.
End Miller.

(** bn256: the digits of 6u+2 below the leading one, most significant first; square
    (not the first time), multiply by the next line, and by one more for a digit
    that is not zero; two further lines at the end. *)
Definition bn_step terms (first : bool) (s : F12 * nat) (digit : Z) : F12 * nat :=
  let '(f, j) := s in
  let f := if first then f else mul12 bn_xi f f in
  let f := mul12 bn_xi f (lines bn_xi bn_line terms j) in
  if digit =? 0 then (f, S j) else (mul12 bn_xi f (lines bn_xi bn_line terms (S j)), S (S j)).
Fixpoint bn_steps_from terms (first : bool) (s : F12 * nat) (digits : list Z) : F12 * nat :=
  match digits with [] => s | d :: ds => bn_steps_from terms false (bn_step terms first s d) ds end.
Definition bn_miller (digits : list Z) terms : F12 * nat :=
  let '(f, j) := bn_steps_from terms true (one12, 0%nat) digits in
  (mul12 bn_xi (mul12 bn_xi f (lines bn_xi bn_line terms j)) (lines bn_xi bn_line terms (S j)), S (S j)).

(** bls12-381: the bits of |x|/2 below the leading one: multiply by the next line, and
    by one more for a set bit, then square; one further line at the end and
    conjugation (x is negative). *)
Definition bls_step terms (s : F12 * nat) (bit : bool) : F12 * nat :=
  let '(f, j) := s in
  let f := mul12 bls_xi f (lines bls_xi bls_line terms j) in
  let '(f, j) := if bit then (mul12 bls_xi f (lines bls_xi bls_line terms (S j)), S (S j)) else (f, S j) in
  (mul12 bls_xi f f, j).
Definition bls_miller (bits : list bool) terms : F12 * nat :=
  let '(f, j) := fold_left (bls_step terms) bits (one12, 0%nat) in
  (conj12 (mul12 bls_xi f (lines bls_xi bls_line terms j)), S j).
