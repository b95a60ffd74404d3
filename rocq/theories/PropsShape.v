(** PROPERTY C25: the shape of the circuit does not depend on the witness.

    SpecShape.v: [shape_indep R m n] says that if m and n run from contexts of the same shape and both complete,
    then the contexts at the end have the same shape (equal fixed columns, copy constraints, marks, offsets and heights, witnesses in the same
    cells) and the results are related by R.  [sav], [saint], [spt] ... relate handles on the
    same cells, whatever their values.  Arguments that occur twice in a
    statement without a relation are constants of the program (coefficients, constants, indices); arguments written
    v and v' without a relation are witnesses, and arbitrary. *)
From Verif Require Import Prelude FieldZ Circuit Context Spec BaseChip RangeInfo RangeChip IntegerChip EccChip ScalarChip Msm SpecShape Shape Moduli Fields SpecEcc PropsEcc ShapeMain.
(** C25 for the base chip: rows, sequencing and all operations of base_chip.rs. *)
Theorem C25_base :
  forall (NM : NMod),
    (forall X Y (R : X -> Y -> Prop) x y, R x y -> shape_indep R (mret x) (mret y))
 /\ (forall X Y X' Y' (R : X -> Y -> Prop) (S : X' -> Y' -> Prop) m n k l, shape_indep R m n ->
      (forall x y, R x y -> shape_indep S (k x) (l y)) -> shape_indep S (mbind m k) (mbind n l))
 /\ (forall b b', shape_indep any (massert b) (massert b'))
 /\ (forall l l' constant muls next, Forall2 (both ssch eq) l l' -> shape_indep (Forall2 sav) (one_line l constant muls next) (one_line l' constant muls next))
 /\ (forall l l' t t' constant muls next, Forall2 (both ssch eq) l l' -> both ssch eq t t' ->
      shape_indep (both (Forall2 sav) sav) (one_line_with_last l t constant muls next) (one_line_with_last l' t' constant muls next))
 /\ (forall pairs pairs' constant, (Forall2 (both ssch eq)) pairs pairs' -> shape_indep (Forall2 sav) (one_line_add pairs constant) (one_line_add pairs' constant))
 /\ (forall elems elems' constant, (Forall2 (both sav (@eq Z))) elems elems' -> shape_indep sav (sum_with_constant elems constant) (sum_with_constant elems' constant))
 /\ (forall a a' b b', sav a a' -> sav b b' -> shape_indep sav (add a b) (add a' b'))
 /\ (forall a a' c, sav a a' -> shape_indep sav (add_constant a c) (add_constant a' c))
 /\ (forall a a' b b', sav a a' -> sav b b' -> shape_indep sav (sub a b) (sub a' b'))
 /\ (forall a a' b b', sav a a' -> sav b b' -> shape_indep sav (mul a b) (mul a' b'))
 /\ (forall a a' b b' c, sav a a' -> sav b b' -> shape_indep sav (mul_add_constant a b c) (mul_add_constant a' b' c))
 /\ (forall a a' b b' ab_coeff c c' c_coeff, sav a a' -> sav b b' -> sav c c' -> shape_indep sav (mul_add a b ab_coeff c c_coeff) (mul_add a' b' ab_coeff c' c_coeff))
 /\ (forall ls ls', (Forall2 (both (both (both sav sav) sav) eq)) ls ls' -> shape_indep sav (mul_add_with_next_line ls) (mul_add_with_next_line ls'))
 /\ (forall a a', sav a a' -> shape_indep sav (invert_unsafe a) (invert_unsafe a'))
 /\ (forall a a', sav a a' -> shape_indep (both sav sav) (invert a) (invert a'))
 /\ (forall a a', sav a a' -> shape_indep sav (is_zero a) (is_zero a'))
 /\ (forall a a' b b', sav a a' -> sav b b' -> shape_indep sav (div_unsafe a b) (div_unsafe a' b'))
 /\ (forall v, shape_indep sav (assign_constant v) (assign_constant v))
 /\ (forall v v', shape_indep sav (assign v) (assign v'))
 /\ (forall a a', shape_indep sav (assign_bit a) (assign_bit a'))
 /\ (forall a a' b b', sav a a' -> sav b b' -> shape_indep any (assert_equal a b) (assert_equal a' b'))
 /\ (forall a a' b, sav a a' -> shape_indep any (assert_constant a b) (assert_constant a' b))
 /\ (forall a a', sav a a' -> shape_indep any (assert_bit a) (assert_bit a'))
 /\ (forall a a' b b', sav a a' -> sav b b' -> shape_indep sav (and_ a b) (and_ a' b'))
 /\ (forall a a', sav a a' -> shape_indep sav (not_ a) (not_ a'))
 /\ (forall a a' b b', sav a a' -> sav b b' -> shape_indep sav (not_and a b) (not_and a' b'))
 /\ (forall a a' b b', sav a a' -> sav b b' -> shape_indep sav (or_ a b) (or_ a' b'))
 /\ (forall a a' b b', sav a a' -> sav b b' -> shape_indep sav (xor_ a b) (xor_ a' b'))
 /\ (forall a a' b b', sav a a' -> sav b b' -> shape_indep sav (xnor_ a b) (xnor_ a' b'))
 /\ (forall cond cond' a a' b b', sav cond cond' -> sav a a' -> sav b b' -> shape_indep sav (bisec cond a b) (bisec cond' a' b'))
 /\ (forall cond cond' a a' b b', sav cond cond' -> sav a a' -> sav b b' -> shape_indep sav (bisec_cond cond a b) (bisec_cond cond' a' b'))
 /\ (forall a a', sav a a' -> shape_indep any (assert_true a) (assert_true a'))
 /\ (forall a a', sav a a' -> shape_indep any (assert_false a) (assert_false a'))
 /\ (forall a a', sav a a' -> shape_indep any (try_assert_false a) (try_assert_false a')).
Proof. exact C25_base_main. Qed.
Print Assumptions C25_base.
Example C25_base_nonvacuous : same_shape ctx_new ctx_new
  /\ exists x1 c1 x2 c2, (a <- @assign 7 ;; b <- @assign_bit bn256_fr 1 ;; @mul bn256_fr a b) ctx_new = Ok (x1, c1)
       /\ (a <- @assign 9 ;; b <- @assign_bit bn256_fr 0 ;; @mul bn256_fr a b) ctx_new = Ok (x2, c2)
       /\ a_val x1 = 7 /\ a_val x2 = 0 /\ sav x1 x2 /\ same_shape c1 c2.
Proof.
  split; [constructor; reflexivity|].
  assert (K : @shape_indep av av sav (a <- @assign 7 ;; b <- @assign_bit bn256_fr 1 ;; @mul bn256_fr a b) (a <- @assign 9 ;; b <- @assign_bit bn256_fr 0 ;; @mul bn256_fr a b)).
  { eapply SR_bind; [apply (@sr_assign bn256_fr)|intros]. eapply SR_bind; [apply (@sr_assign_bit bn256_fr)|intros]. apply sr_mul; assumption. }
  do 4 eexists. split; [vm_compute; reflexivity|]. split; [vm_compute; reflexivity|]. split; [reflexivity|]. split; [reflexivity|].
  refine (K ctx_new ctx_new _ _ _ _ _ _ _); [constructor; reflexivity|vm_compute; reflexivity|vm_compute; reflexivity].
Qed.

(** C25 for the range, select and integer chips. *)
Theorem C25_integer :
  forall (NM : NMod),
    (forall bn bn', shape_indep sav (assign_common bn) (assign_common bn'))
 /\ (forall bn bn' k b, shape_indep sav (assign_limb bn k b) (assign_limb bn' k b))
 /\ (forall v v' off g s, sav v v' -> shape_indep any (assign_cache_value v off g s) (assign_cache_value v' off g s))
 /\ (forall v v' off g s s', sav s s' -> shape_indep sav (assign_selected_value v off g s) (assign_selected_value v' off g s'))
 /\ (forall bn bn', shape_indep sav (assign_nonleading_limb bn) (assign_nonleading_limb bn'))
 /\ (forall I0 bn bn', shape_indep sav (assign_w_ceil_leading_limb I0 bn) (assign_w_ceil_leading_limb I0 bn'))
 /\ (forall I0 bn bn', shape_indep sav (assign_d_leading_limb I0 bn) (assign_d_leading_limb I0 bn'))
 /\ (forall x0 w w', shape_indep saint (assign_w x0 w) (assign_w x0 w'))
 /\ (forall x0 d d', shape_indep (both (Forall2 sav) sav) (assign_d x0 d) (assign_d x0 d'))
 /\ (forall x0 a a', saint a a' -> shape_indep saint (reduce x0 a) (reduce x0 a'))
 /\ (forall x0 a a', saint a a' -> shape_indep saint (conditionally_reduce x0 a) (conditionally_reduce x0 a'))
 /\ (forall x0 a a' b b', saint a a' -> saint b b' -> shape_indep saint (int_add x0 a b) (int_add x0 a' b'))
 /\ (forall x0 a a' b b', saint a a' -> saint b b' -> shape_indep saint (int_sub x0 a b) (int_sub x0 a' b'))
 /\ (forall x0 a a', saint a a' -> shape_indep saint (int_neg x0 a) (int_neg x0 a'))
 /\ (forall x0 a a' b b', saint a a' -> saint b b' -> shape_indep saint (int_mul x0 a b) (int_mul x0 a' b'))
 /\ (forall a a', saint a a' -> shape_indep sav (is_pure_zero a) (is_pure_zero a'))
 /\ (forall x0 a a', saint a a' -> shape_indep sav (is_pure_w_modulus x0 a) (is_pure_w_modulus x0 a'))
 /\ (forall x0 a a', saint a a' -> shape_indep sav (is_int_zero x0 a) (is_int_zero x0 a'))
 /\ (forall x0 a a' b b', saint a a' -> saint b b' -> shape_indep sav (is_int_equal x0 a b) (is_int_equal x0 a' b'))
 /\ (forall x0 a a' b b', saint a a' -> saint b b' -> shape_indep (both sav saint) (int_div x0 a b) (int_div x0 a' b'))
 /\ (forall x0 w, shape_indep saint (assign_int_constant x0 w) (assign_int_constant x0 w))
 /\ (forall x0 x x', saint x x' -> shape_indep saint (int_unsafe_invert x0 x) (int_unsafe_invert x0 x'))
 /\ (forall x0 a a' b b', saint a a' -> saint b b' -> shape_indep any (assert_int_equal x0 a b) (assert_int_equal x0 a' b'))
 /\ (forall x0 a a', saint a a' -> shape_indep saint (int_square x0 a) (int_square x0 a'))
 /\ (forall x0 a a' b, saint a a' -> shape_indep saint (int_mul_small_constant x0 a b) (int_mul_small_constant x0 a' b))
 /\ (forall x0 cond cond' a a' b b', sav cond cond' -> saint a a' -> saint b b' -> shape_indep saint (bisec_int x0 cond a b) (bisec_int x0 cond' a' b')).
Proof. exact C25_integer_main. Qed.
Print Assumptions C25_integer.
Example C25_integer_nonvacuous :
  exists x1 c1 x2 c2, (a <- @assign_nonleading_limb bn256_fr 7 ;; @is_zero bn256_fr a) ctx_new = Ok (x1, c1)
       /\ (a <- @assign_nonleading_limb bn256_fr 0 ;; @is_zero bn256_fr a) ctx_new = Ok (x2, c2)
       /\ a_val x1 = 0 /\ a_val x2 = 1 /\ a_cell x1 = a_cell x2.
Proof. do 4 eexists. split; [vm_compute; reflexivity|]. split; [vm_compute; reflexivity|]. auto. Qed.

(** C25 for the point gadgets.  The unsafe ones return a Result; both runs complete when both return Ok. *)
Theorem C25_ecc :
  forall (NM : NMod),
    (forall x0 p, shape_indep spt (assign_constant_point x0 p) (assign_constant_point x0 p))
 /\ (forall x0 x1 x x' y y', saint x x' -> saint y y' -> shape_indep (both saint saint) (curve_sides x0 x1 x y) (curve_sides x0 x1 x' y'))
 /\ (forall x0 x1 p p', shape_indep spt (assign_point x0 x1 p) (assign_point x0 x1 p'))
 /\ (forall x0 x1 p p', shape_indep snz (assign_non_zero_point x0 x1 p) (assign_non_zero_point x0 x1 p'))
 /\ (forall x0, shape_indep sptc (assign_identity x0) (assign_identity x0))
 /\ (forall x0 cond cond' a a' b b', sav cond cond' -> spt a a' -> spt b b' -> shape_indep spt (bisec_point x0 cond a b) (bisec_point x0 cond' a' b'))
 /\ (forall x0 cond cond' a a' b b', sav cond cond' -> scurv a a' -> scurv b b' -> shape_indep scurv (bisec_curvature x0 cond a b) (bisec_curvature x0 cond' a' b'))
 /\ (forall x0 cond cond' a a' b b', sav cond cond' -> sptc a a' -> sptc b b' -> shape_indep sptc (bisec_point_with_curvature x0 cond a b) (bisec_point_with_curvature x0 cond' a' b'))
 /\ (forall x0 lambda lambda' a a' b b', scurv lambda lambda' -> spt a a' -> spt b b' -> shape_indep spt (lambda_to_point x0 lambda a b) (lambda_to_point x0 lambda' a' b'))
 /\ (forall x0 a a' b b', sptc a a' -> spt b b' -> shape_indep spt (ecc_add x0 a b) (ecc_add x0 a' b'))
 /\ (forall x0 x1 a a', sptc a a' -> shape_indep spt (ecc_double x0 x1 a) (ecc_double x0 x1 a'))
 /\ (forall x0 a a' b b', spt a a' -> spt b b' -> shape_indep any (ecc_assert_equal x0 a b) (ecc_assert_equal x0 a' b'))
 /\ (forall x0 a a', spt a a' -> shape_indep spt (ecc_neg x0 a) (ecc_neg x0 a'))
 /\ (forall x0 a a', spt a a' -> shape_indep spt (ecc_reduce x0 a) (ecc_reduce x0 a'))
 /\ (forall x0 x x' y y', saint x x' -> saint y y' -> shape_indep (both sav saint) (curvature_of x0 x y) (curvature_of x0 x' y'))
 /\ (forall x0 a a', spt a a' -> shape_indep sptc (ecc_reduce_with_curvature x0 a) (ecc_reduce_with_curvature x0 a'))
 /\ (forall x0 a a', spt a a' -> shape_indep sptc (to_point_with_curvature x0 a) (to_point_with_curvature x0 a'))
 /\ (forall x0 p p', spt p p' -> shape_indep (Forall2 sav) (ecc_encode x0 p) (ecc_encode x0 p'))
 /\ (forall x0 p p' sc g offset, saint p p' -> shape_indep (@eq Z) (assign_cache_integer x0 p sc g offset) (assign_cache_integer x0 p' sc g offset))
 /\ (forall x0 p p' sc sc' g offset, sav sc sc' -> shape_indep (both saint (@eq Z)) (assign_selected_integer x0 p sc g offset) (assign_selected_integer x0 p' sc' g offset))
 /\ (forall x0 p p' g sc, sptc p p' -> shape_indep any (assign_cache_point x0 p g sc) (assign_cache_point x0 p' g sc))
 /\ (forall x0 p p' sc sc' g, sav sc sc' -> shape_indep sptc (assign_selected_point x0 p sc g) (assign_selected_point x0 p' sc' g))
 /\ (forall x0 lambda lambda' a a' b b', saint lambda lambda' -> snz a a' -> snz b b' -> shape_indep snz (lambda_to_point_non_zero x0 lambda a b) (lambda_to_point_non_zero x0 lambda' a' b'))
 /\ (forall x0 a a' b b', snz a a' -> snz b b' -> shape_indep_u snz (ecc_add_unsafe x0 a b) (ecc_add_unsafe x0 a' b'))
 /\ (forall x0 a a', snz a a' -> shape_indep_u snz (ecc_double_unsafe x0 a) (ecc_double_unsafe x0 a'))
 /\ (forall x0 a a', snz a a' -> shape_indep snz (ecc_neg_non_zero x0 a) (ecc_neg_non_zero x0 a'))
 /\ (forall x0 a a', snz a a' -> shape_indep snz (ecc_reduce_non_zero x0 a) (ecc_reduce_non_zero x0 a'))
 /\ (forall x0 cond cond' a a' b b', sav cond cond' -> snz a a' -> snz b b' -> shape_indep snz (ecc_bisec_non_zero_point x0 cond a b) (ecc_bisec_non_zero_point x0 cond' a' b'))
 /\ (forall x0 candidates candidates' group_bits group_bits', (Forall2 snz) candidates candidates' -> (Forall2 sav) group_bits group_bits' -> shape_indep snz (bisec_candidate_non_zero x0 candidates group_bits) (bisec_candidate_non_zero x0 candidates' group_bits'))
 /\ (forall candidates candidates' group_bits group_bits', (Forall2 sav) group_bits group_bits' -> shape_indep (both sav any) (pick_candidate_non_zero candidates group_bits) (pick_candidate_non_zero candidates' group_bits'))
 /\ (forall x0 p p' sc sc' g, sav sc sc' -> shape_indep snz (assign_selected_point_non_zero x0 p sc g) (assign_selected_point_non_zero x0 p' sc' g))
 /\ (forall x0 p p' g sc, snz p p' -> shape_indep any (assign_cache_point_non_zero x0 p g sc) (assign_cache_point_non_zero x0 p' g sc))
 /\ (forall x0 a a' b b', snz a a' -> snz b b' -> shape_indep any (ecc_assert_equal_non_zero x0 a b) (ecc_assert_equal_non_zero x0 a' b'))
 /\ (forall a a', snz a a' -> shape_indep spt (ecc_non_zero_point_downgrade a) (ecc_non_zero_point_downgrade a'))
 /\ (forall x0 a a' b b', spt a a' -> snz b b' -> shape_indep snz (ecc_bisec_to_non_zero_point x0 a b) (ecc_bisec_to_non_zero_point x0 a' b')).
Proof. exact C25_ecc_main. Qed.
Print Assumptions C25_ecc.

(** C25 for scalar decomposition and complete multi-scalar multiplications, with their clones; the random points ra, rl may differ too, and which candidate the select chip takes depends on the witness. *)
Theorem C25_msm :
  forall (NM : NMod),
    (forall W bits bits', (Forall2 sav) bits bits' -> shape_indep (Forall2 (Forall2 sav)) (to_windows W bits) (to_windows W bits'))
 /\ (forall W s s', sav s s' -> shape_indep (Forall2 (Forall2 sav)) (decompose_scalar_native W s) (decompose_scalar_native W s'))
 /\ (forall I0 W s s', saint s s' -> shape_indep (Forall2 (Forall2 sav)) (decompose_scalar_general I0 W s) (decompose_scalar_general I0 W s'))
 /\ (forall I b gen ra ra' rl rl' prefix points points' scalars scalars', Forall2 spt points points' -> Forall2 sav scalars scalars' ->
      shape_indep (both spt eq) (msm_native I b gen ra rl prefix points scalars) (msm_native I b gen ra' rl' prefix points' scalars'))
 /\ (forall I J b gen ra ra' rl rl' prefix points points' scalars scalars', Forall2 spt points points' -> Forall2 saint scalars scalars' ->
      shape_indep (both spt eq) (msm_general I J b gen ra rl prefix points scalars) (msm_general I J b gen ra' rl' prefix points' scalars')).
Proof. exact C25_msm_main. Qed.
Print Assumptions C25_msm.

