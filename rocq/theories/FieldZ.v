(** Field elements of the native field N are integers in [0, n).
    This file models the field operations that the gadgets use on witness
    values and coefficients (the halo2 [FieldExt] trait), as arithmetic mod n. *)
From Verif Require Import Prelude.

(** The native modulus.  Everything is generic in it. *)
Class NMod := mkNMod { nmod : Z }.

Section Field.
Context {NM : NMod}.

Definition fof (x : Z) : Z := x mod nmod.          (* N::from, bn_to_field *)
Definition fadd (a b : Z) : Z := (a + b) mod nmod.
Definition fsub (a b : Z) : Z := (a - b) mod nmod.
Definition fmul (a b : Z) : Z := (a * b) mod nmod.
Definition fneg (a : Z) : Z := (- a) mod nmod.
Definition fzero : Z := 0.
Definition fone : Z := 1.

End Field.

(** Extended Euclid on (r0, r1) with cofactors of [a]: invariant
    r_i = s_i * a (mod p).  Used for [invert()]. *)
Fixpoint egcd (fuel : nat) (r0 s0 r1 s1 : Z) : Z * Z :=
  match fuel with
  | O => (r0, s0)
  | S f => if r1 =? 0 then (r0, s0)
           else let q := r0 / r1 in
                egcd f r1 s1 (r0 - q * r1) (s0 - q * s1)
  end.

(** [invert] of the ff::Field trait modulo [p]: [None] exactly for zero
    (for prime p, see FieldZProofs).  Fuel 2*log2 p + 3 always suffices. *)
Definition zinv (p a : Z) : option Z :=
  let '(g, s) := egcd (2 * Z.to_nat (Z.log2 p) + 3) p 0 (a mod p) 1 in
  if g =? 1 then Some (s mod p) else None.
