(** SPECIFICATION of the additions that the multi-scalar multiplication performs (C57):
    which points it adds, in which order, in terms of points only.  [chord] and
    [tangent] are the additions that the incomplete formulas can do. *)
From Verif Require Import Prelude SpecEcc.

Section Schedule.
Variable w : Z.

(** r = p + q, the two points being affine with different abscissae. *)
Definition chord (p q r : pt) : Prop :=
  match p, q with Aff x1 _, Aff x2 _ => x1 <> x2 | _, _ => False end /\ pt_add w p q r.
(** r = 2 p, the point being affine and not of order two. *)
Definition tangent (p r : pt) : Prop :=
  match p with Aff _ y => (2 * y) mod w <> 0 | Inf => False end /\ pt_add w p p r.

(** r = p0 + the sum of the points ps whose bit in ds is set, added from the last to
    the first, every addition being a chord. *)
Inductive candidate (p0 : pt) : list pt -> list bool -> pt -> Prop :=
| cand_nil : candidate p0 [] [] p0
| cand_skip p ps ds r : candidate p0 ps ds r -> candidate p0 (p :: ps) (false :: ds) r
| cand_add p ps ds q r : candidate p0 ps ds q -> chord q p r -> candidate p0 (p :: ps) (true :: ds) r.

(** One window: from acc, the groups add one candidate each, selected by their bits. *)
Inductive window : pt -> list (pt * list pt) -> list (list bool) -> pt -> Prop :=
| win_nil acc : window acc [] [] acc
| win_cons acc p0 ps gs ds dss q acc' r :
    candidate p0 ps ds q -> chord q acc acc' -> window acc' gs dss r -> window acc ((p0, ps) :: gs) (ds :: dss) r.

(** The windows are combined: double, add the window's line, and add [extra] if there is one. *)
Inductive combination (extra : option pt) : pt -> list pt -> pt -> Prop :=
| comb_nil acc : combination extra acc [] acc
| comb_cons acc l ls a1 a2 a3 r :
    tangent acc a1 -> chord l a1 a2 ->
    match extra with Some e => chord a2 e a3 | None => a3 = a2 end ->
    combination extra a3 ls r -> combination extra acc (l :: ls) r.

(** n items in ceil(n / best) groups of equal size. *)
Definition group_size (best n : nat) : nat := let k := ((n + best - 1) / best)%nat in ((n + k - 1) / k)%nat.
(** The groups start from R and from its opposite in turn. *)
Fixpoint with_starts (R R' : pt) (gs : list (list pt)) : list (pt * list pt) :=
  match gs with [] => [] | g :: gs' => (R, g) :: with_starts R' R gs' end.

(** Bit number i from the top of an m-bit number. *)
Definition top_bit (m : nat) (v : Z) (i : nat) : bool := Z.testbit v (Z.of_nat (m - 1 - i)).

(** The additions of one multi-scalar multiplication of the points pts by the m-bit
    numbers vs are all possible: the auxiliary points are A and R. *)
Definition schedule (best m : nat) (A R : pt) (pts : list pt) (vs : list Z) : Prop :=
  let k := group_size best (length pts) in
  let gs := with_starts R (pt_neg w R) (chunks k pts) in
  (forall p0 ps ds, In (p0, ps) gs -> length ds = length ps -> exists r, candidate p0 ps ds r)
  /\ exists lines r,
       Forall2 (fun i l => window (pt_neg w A) gs (map (map (fun v => top_bit m v i)) (chunks k vs)) l) (seq 0 m) lines
       /\ combination (if Nat.odd (length gs) then Some (pt_neg w R) else None) A lines r.
(** The multiplication replaces an identity point by the generator, with the scalar 0. *)
Definition replaced (g : pt) (inputs : list (pt * Z)) : list (pt * Z) :=
  map (fun pv => match fst pv with Inf => (g, 0) | Aff _ _ => pv end) inputs.
Definition msm_schedule (best m : nat) (g A R : pt) (inputs : list (pt * Z)) : Prop :=
  schedule best m A R (map fst (replaced g inputs)) (map snd (replaced g inputs)).
End Schedule.
