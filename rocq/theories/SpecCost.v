(** Specification: how many rows are recorded, wherever they are put (C57). *)
From Verif Require Import Prelude FieldZ Circuit Context BaseChip RangeInfo RangeChip IntegerChip EccChip SpecShape.

(** The run from c to c' takes as many rows of each chip as the run from d to d'. *)
Definition same_cost (c c' d d' : ctx) : Prop :=
  (base_off c' + base_off d = base_off d' + base_off c)%nat /\ (range_off c' + range_off d = range_off d' + range_off c)%nat
  /\ (select_off c' + select_off d = select_off d' + select_off c)%nat.

(** Two runs, of m and of n, started anywhere, that both complete take as many rows and have results related by R. *)
Definition cost_indep {X Y} (R : X -> Y -> Prop) (m : M X) (n : M Y) : Prop :=
  forall c d x y c' d', m c = Ok (x, c') -> n d = Ok (y, d') -> R x y /\ same_cost c c' d d'.
(** The same for Rust's [Result], completing being [Ok]. *)
Definition cost_indep_u {X Y} (R : X -> Y -> Prop) (m : M (uresult X)) (n : M (uresult Y)) : Prop :=
  forall c d x y c' d', m c = Ok (UOk x, c') -> n d = Ok (UOk y, d') -> R x y /\ same_cost c c' d d'.

(** Operands of equal cost: any two cells; integers with as many limbs and the same count of additions since the last
    reduction. *)
Definition tav (a b : av) : Prop := True.
Definition tsch (s t : schema) : Prop := True.
Definition topt (a b : option av) : Prop := match a, b with Some _, Some _ | None, None => True | _, _ => False end.
Record taint (a b : aint) : Prop := {
  ta_limbs : Forall2 tav (i_limbs a) (i_limbs b); ta_native : tav (i_native a) (i_native b); ta_times : i_times a = i_times b }.
Record tcurv (a b : acurv) : Prop := { tk_v : taint (k_v a) (k_v b); tk_z : tav (k_z a) (k_z b) }.
Record tpt (a b : apoint) : Prop := { tp_x : taint (p_x a) (p_x b); tp_y : taint (p_y a) (p_y b); tp_z : tav (p_z a) (p_z b) }.
Record tnz (a b : anz) : Prop := { tn_x : taint (nz_x a) (nz_x b); tn_y : taint (nz_y a) (nz_y b) }.
Record tptc (a b : apointc) : Prop := { tc_x : taint (pc_x a) (pc_x b); tc_y : taint (pc_y a) (pc_y b); tc_z : tav (pc_z a) (pc_z b);
  tc_c : tcurv (pc_c a) (pc_c b) }.
