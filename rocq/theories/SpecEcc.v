(** SPECIFICATION of the curve y^2 = x^3 + b over the residues modulo a prime w:
    points, the chord-and-tangent law as a relation, and what it means for point
    handles to stand for a point.  Nothing here depends on how the gadgets work. *)
From Verif Require Import Prelude FieldZ Circuit Context IntegerChip SpecInt EccChip.

Inductive pt := Inf | Aff (x y : Z).

(** Coordinates are residues and satisfy the curve equation. *)
Definition on_curve (w b : Z) (p : pt) : Prop :=
  match p with
  | Inf => True
  | Aff x y => 0 <= x < w /\ 0 <= y < w /\ (y * y) mod w = (x * x * x + b) mod w
  end.

(** The third point of the line of slope l through (x1, y1) and a point with
    abscissa x2, reflected. *)
Definition third (w l x1 y1 x2 : Z) : pt :=
  let x3 := (l * l - x1 - x2) mod w in
  Aff x3 ((l * (x1 - x3) - y1) mod w).

(** Addition of points: identity is neutral; opposite points (also a point of
    order two with itself) add to the identity; a point is doubled with the
    tangent; points with different abscissae are added with the chord. *)
Inductive pt_add (w : Z) : pt -> pt -> pt -> Prop :=
| add_inf_l q : pt_add w Inf q q
| add_inf_r p : pt_add w p Inf p
| add_opposite x y y' : (y + y') mod w = 0 -> pt_add w (Aff x y) (Aff x y') Inf
| add_tangent x y l : (2 * y) mod w <> 0 -> (2 * y * l) mod w = (3 * x * x) mod w ->
    pt_add w (Aff x y) (Aff x y) (third w l x y x)
| add_chord x1 y1 x2 y2 l : x1 <> x2 -> ((x1 - x2) * l) mod w = (y1 - y2) mod w ->
    pt_add w (Aff x1 y1) (Aff x2 y2) (third w l x1 y1 x2).

Definition pt_neg (w : Z) (p : pt) : pt :=
  match p with Inf => Inf | Aff x y => Aff x ((- y) mod w) end.

(** The point a witness value [C::CurveExt] stands for. *)
Definition pt_of (p : option (Z * Z)) : pt := match p with Some (x, y) => Aff x y | None => Inf end.

Section Rep.
Context {NM : NMod}.
Variable w : Z.
Variable f : av -> Z.     (* value of a handle: witness, or cell of an assignment *)

Definition int_is (x : aint) (v : Z) : Prop := int_wf w f x /\ int_value f x mod w = v.

(** A handle with identity flag stands for the identity when the flag is 1
    (whatever the coordinates), for an affine point when it is 0. *)
Definition point_is (a : apoint) (p : pt) : Prop :=
  match p with
  | Inf => f (p_z a) = 1 /\ int_wf w f (p_x a) /\ int_wf w f (p_y a)
  | Aff x y => f (p_z a) = 0 /\ int_is (p_x a) x /\ int_is (p_y a) y
  end.
Definition nz_is (a : anz) (x y : Z) : Prop := int_is (nz_x a) x /\ int_is (nz_y a) y.

(** The cached tangent slope: flag 1 when the tangent is vertical (2y = 0). *)
Definition curvature_is (k : acurv) (x y : Z) : Prop :=
  int_wf w f (k_v k)
  /\ (if (2 * y) mod w =? 0 then f (k_z k) = 1
      else f (k_z k) = 0 /\ (2 * y * int_value f (k_v k)) mod w = (3 * x * x) mod w).
Definition pointc_is (a : apointc) (p : pt) : Prop :=
  point_is (to_point a) p
  /\ match p with
     | Inf => int_wf w f (k_v (pc_c a)) /\ (f (k_z (pc_c a)) = 0 \/ f (k_z (pc_c a)) = 1)
     | Aff x y => curvature_is (pc_c a) x y
     end.
End Rep.

(** A handle recorded in [c] with a well-formed witness ([V] is the validity of a
    single cell handle, as in [int_ok]). *)
Section Ok.
Context {NM : NMod}.
Variable w : Z.
Definition point_ok (c : ctx) (a : apoint) (V : ctx -> av -> Prop) : Prop :=
  int_ok w c (p_x a) V /\ int_ok w c (p_y a) V /\ V c (p_z a).
Definition nz_ok (c : ctx) (a : anz) (V : ctx -> av -> Prop) : Prop :=
  int_ok w c (nz_x a) V /\ int_ok w c (nz_y a) V.
Definition pointc_ok (c : ctx) (a : apointc) (V : ctx -> av -> Prop) : Prop :=
  point_ok c (to_point a) V /\ int_ok w c (k_v (pc_c a)) V /\ V c (k_z (pc_c a)).
End Ok.
