(** SPECIFICATION of scalar multiples and of linear combinations of points, as
    relations built from the chord-and-tangent law of SpecEcc.v. *)
From Verif Require Import Prelude SpecEcc.

(** [multiple w p n q]: q = p + ... + p, n times. *)
Inductive multiple (w : Z) (p : pt) : Z -> pt -> Prop :=
| mul_zero : multiple w p 0 Inf
| mul_succ n q r : 0 <= n -> multiple w p n q -> pt_add w p q r -> multiple w p (n + 1) r.

(** [lin_sum w [(p1, n1); ...] q]: q = n1 p1 + n2 p2 + ... *)
Inductive lin_sum (w : Z) : list (pt * Z) -> pt -> Prop :=
| lin_nil : lin_sum w [] Inf
| lin_cons p n l q s r : multiple w p n q -> lin_sum w l s -> pt_add w q s r ->
    lin_sum w ((p, n) :: l) r.

(** Value of a list of binary digits, least significant first. *)
Fixpoint bin_le (l : list Z) : Z := match l with [] => 0 | x :: l' => x + 2 * bin_le l' end.

(** [msm_terms r g inputs terms]: what a multi-scalar multiplication may sum up for
    inputs (point, scalar), the scalar being a residue modulo r: an affine point with
    some representative of its scalar, and in place of an identity point the point g
    with some multiple of r. *)
Inductive msm_terms (r : Z) (g : pt) : list (pt * Z) -> list (pt * Z) -> Prop :=
| terms_nil : msm_terms r g [] []
| terms_aff x y s v l m : 0 <= v -> v mod r = s mod r -> msm_terms r g l m ->
    msm_terms r g ((Aff x y, s) :: l) ((Aff x y, v) :: m)
| terms_inf s v l m : 0 <= v -> v mod r = 0 -> msm_terms r g l m ->
    msm_terms r g ((Inf, s) :: l) ((g, v) :: m).
