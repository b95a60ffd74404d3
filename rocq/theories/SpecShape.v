(** Specification: the shape of what is recorded, without the witness values (C25). *)
From Verif Require Import Prelude FieldZ Circuit Context BaseChip RangeInfo RangeChip IntegerChip EccChip.

(** Two contexts of the same shape: the same fixed columns, copy constraints, marks, offsets and heights, and witnesses
    in the same cells. *)
Record same_shape (c d : ctx) : Prop := {
  sh_fix : forall x, get_fix (c_mem c) x = get_fix (c_mem d) x;
  sh_flag : forall x, get_flag (c_mem c) x = get_flag (c_mem d) x;
  sh_adv : forall x, get_adv (c_mem c) x = None <-> get_adv (c_mem d) x = None;
  sh_perms : c_perms c = c_perms d;
  sh_base_off : base_off c = base_off d; sh_range_off : range_off c = range_off d; sh_select_off : select_off c = select_off d;
  sh_base_h : base_h c = base_h d; sh_range_h : range_h c = range_h d; sh_select_h : select_h c = select_h d
}.

(** Two runs, of m and of n, that both complete have the same shape and results related by R. *)
Definition shape_indep {X Y} (R : X -> Y -> Prop) (m : M X) (n : M Y) : Prop :=
  forall c d x y c' d', same_shape c d -> m c = Ok (x, c') -> n d = Ok (y, d') -> R x y /\ same_shape c' d'.
(** The same for Rust's [Result], completing being [Ok]. *)
Definition shape_indep_u {X Y} (R : X -> Y -> Prop) (m : M (uresult X)) (n : M (uresult Y)) : Prop :=
  forall c d x y c' d', same_shape c d -> m c = Ok (UOk x, c') -> n d = Ok (UOk y, d') -> R x y /\ same_shape c' d'.

(** Handles of the same shape: the same cells, whatever the values. *)
Definition any {X Y} (x : X) (y : Y) : Prop := True.
Definition both {X Y X' Y'} (R : X -> Y -> Prop) (S : X' -> Y' -> Prop) (p : X * X') (q : Y * Y') : Prop :=
  R (fst p) (fst q) /\ S (snd p) (snd q).
Definition sav (a b : av) : Prop := a_cell a = a_cell b.
Definition ssch (s t : schema) : Prop := schema_cell s = schema_cell t.
Definition sopt (a b : option av) : Prop := option_map a_cell a = option_map a_cell b.
Record saint (a b : aint) : Prop := {
  sa_limbs : Forall2 sav (i_limbs a) (i_limbs b); sa_native : sav (i_native a) (i_native b); sa_times : i_times a = i_times b }.
Record scurv (a b : acurv) : Prop := { sk_v : saint (k_v a) (k_v b); sk_z : sav (k_z a) (k_z b) }.
Record spt (a b : apoint) : Prop := { sp_x : saint (p_x a) (p_x b); sp_y : saint (p_y a) (p_y b); sp_z : sav (p_z a) (p_z b) }.
Record snz (a b : anz) : Prop := { sn_x : saint (nz_x a) (nz_x b); sn_y : saint (nz_y a) (nz_y b) }.
Record sptc (a b : apointc) : Prop := { sc_x : saint (pc_x a) (pc_x b); sc_y : saint (pc_y a) (pc_y b); sc_z : sav (pc_z a) (pc_z b);
  sc_c : scurv (pc_c a) (pc_c b) }.
