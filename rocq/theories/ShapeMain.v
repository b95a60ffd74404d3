From Verif Require Import Prelude FieldZ Circuit Context Spec BaseChip RangeInfo RangeChip IntegerChip EccChip ScalarChip Msm SpecShape Shape Moduli Fields SpecEcc PropsEcc.
Lemma C25_base_main :
  forall (NM : NMod),
    (forall X Y (R : X -> Y -> Prop) x y, R x y -> shape_indep R (mret x) (mret y))
 /\ (forall X Y X' Y' (R : X -> Y -> Prop) (S : X' -> Y' -> Prop) m n k l, shape_indep R m n ->
      (forall x y, R x y -> shape_indep S (k x) (l y)) -> shape_indep S (mbind m k) (mbind n l))
 /\ (forall b b', shape_indep any (massert b) (massert b'))
 /\ (forall l l' constant muls next, Forall2 (both ssch eq) l l' -> shape_indep (Forall2 sav) (one_line l constant muls next) (one_line l' constant muls next))
 /\ (forall l l' t t' constant muls next, Forall2 (both ssch eq) l l' -> both ssch eq t t' ->
      shape_indep (both (Forall2 sav) sav) (one_line_with_last l t constant muls next) (one_line_with_last l' t' constant muls next))
 /\ (forall pairs pairs' constant, (Forall2 (both ssch eq)) pairs pairs' -> shape_indep (Forall2 sav) (one_line_add pairs constant) (one_line_add pairs' constant))
 /\ (forall elems elems' constant, (Forall2 (both sav (@eq Z))) elems elems' -> shape_indep sav (sum_with_constant elems constant) (sum_with_constant elems' constant))
 /\ (forall a a' b b', sav a a' -> sav b b' -> shape_indep sav (add a b) (add a' b'))
 /\ (forall a a' c, sav a a' -> shape_indep sav (add_constant a c) (add_constant a' c))
 /\ (forall a a' b b', sav a a' -> sav b b' -> shape_indep sav (sub a b) (sub a' b'))
 /\ (forall a a' b b', sav a a' -> sav b b' -> shape_indep sav (mul a b) (mul a' b'))
 /\ (forall a a' b b' c, sav a a' -> sav b b' -> shape_indep sav (mul_add_constant a b c) (mul_add_constant a' b' c))
 /\ (forall a a' b b' ab_coeff c c' c_coeff, sav a a' -> sav b b' -> sav c c' -> shape_indep sav (mul_add a b ab_coeff c c_coeff) (mul_add a' b' ab_coeff c' c_coeff))
 /\ (forall ls ls', (Forall2 (both (both (both sav sav) sav) eq)) ls ls' -> shape_indep sav (mul_add_with_next_line ls) (mul_add_with_next_line ls'))
 /\ (forall a a', sav a a' -> shape_indep sav (invert_unsafe a) (invert_unsafe a'))
 /\ (forall a a', sav a a' -> shape_indep (both sav sav) (invert a) (invert a'))
 /\ (forall a a', sav a a' -> shape_indep sav (is_zero a) (is_zero a'))
 /\ (forall a a' b b', sav a a' -> sav b b' -> shape_indep sav (div_unsafe a b) (div_unsafe a' b'))
 /\ (forall v, shape_indep sav (assign_constant v) (assign_constant v))
 /\ (forall v v', shape_indep sav (assign v) (assign v'))
 /\ (forall a a', shape_indep sav (assign_bit a) (assign_bit a'))
 /\ (forall a a' b b', sav a a' -> sav b b' -> shape_indep any (assert_equal a b) (assert_equal a' b'))
 /\ (forall a a' b, sav a a' -> shape_indep any (assert_constant a b) (assert_constant a' b))
 /\ (forall a a', sav a a' -> shape_indep any (assert_bit a) (assert_bit a'))
 /\ (forall a a' b b', sav a a' -> sav b b' -> shape_indep sav (and_ a b) (and_ a' b'))
 /\ (forall a a', sav a a' -> shape_indep sav (not_ a) (not_ a'))
 /\ (forall a a' b b', sav a a' -> sav b b' -> shape_indep sav (not_and a b) (not_and a' b'))
 /\ (forall a a' b b', sav a a' -> sav b b' -> shape_indep sav (or_ a b) (or_ a' b'))
 /\ (forall a a' b b', sav a a' -> sav b b' -> shape_indep sav (xor_ a b) (xor_ a' b'))
 /\ (forall a a' b b', sav a a' -> sav b b' -> shape_indep sav (xnor_ a b) (xnor_ a' b'))
 /\ (forall cond cond' a a' b b', sav cond cond' -> sav a a' -> sav b b' -> shape_indep sav (bisec cond a b) (bisec cond' a' b'))
 /\ (forall cond cond' a a' b b', sav cond cond' -> sav a a' -> sav b b' -> shape_indep sav (bisec_cond cond a b) (bisec_cond cond' a' b'))
 /\ (forall a a', sav a a' -> shape_indep any (assert_true a) (assert_true a'))
 /\ (forall a a', sav a a' -> shape_indep any (assert_false a) (assert_false a'))
 /\ (forall a a', sav a a' -> shape_indep any (try_assert_false a) (try_assert_false a')).
Proof.
  intros NM.
  split; [intros X Y R x y; apply SR_ret|].
  split; [intros X Y X' Y' R S m n k l; apply SR_bind|].
  split; [exact SR_assert|].
  split; [exact SR_one_line|].
  split; [exact SR_one_line_with_last|].
  split; [exact (@sr_one_line_add NM)|].
  split; [exact (@sr_sum_with_constant NM)|].
  split; [exact (@sr_add NM)|].
  split; [exact (@sr_add_constant NM)|].
  split; [exact (@sr_sub NM)|].
  split; [exact (@sr_mul NM)|].
  split; [exact (@sr_mul_add_constant NM)|].
  split; [exact (@sr_mul_add NM)|].
  split; [exact (@sr_mul_add_with_next_line NM)|].
  split; [exact (@sr_invert_unsafe NM)|].
  split; [exact (@sr_invert NM)|].
  split; [exact (@sr_is_zero NM)|].
  split; [exact (@sr_div_unsafe NM)|].
  split; [exact (@sr_assign_constant NM)|].
  split; [exact (@sr_assign NM)|].
  split; [exact (@sr_assign_bit NM)|].
  split; [exact (@sr_assert_equal NM)|].
  split; [exact (@sr_assert_constant NM)|].
  split; [exact (@sr_assert_bit NM)|].
  split; [exact (@sr_and_ NM)|].
  split; [exact (@sr_not_ NM)|].
  split; [exact (@sr_not_and NM)|].
  split; [exact (@sr_or_ NM)|].
  split; [exact (@sr_xor_ NM)|].
  split; [exact (@sr_xnor_ NM)|].
  split; [exact (@sr_bisec NM)|].
  split; [exact (@sr_bisec_cond NM)|].
  split; [exact (@sr_assert_true NM)|].
  split; [exact (@sr_assert_false NM)|].
  exact (@sr_try_assert_false NM).
Qed.

Lemma C25_integer_main :
  forall (NM : NMod),
    (forall bn bn', shape_indep sav (assign_common bn) (assign_common bn'))
 /\ (forall bn bn' k b, shape_indep sav (assign_limb bn k b) (assign_limb bn' k b))
 /\ (forall v v' off g s, sav v v' -> shape_indep any (assign_cache_value v off g s) (assign_cache_value v' off g s))
 /\ (forall v v' off g s s', sav s s' -> shape_indep sav (assign_selected_value v off g s) (assign_selected_value v' off g s'))
 /\ (forall bn bn', shape_indep sav (assign_nonleading_limb bn) (assign_nonleading_limb bn'))
 /\ (forall I0 bn bn', shape_indep sav (assign_w_ceil_leading_limb I0 bn) (assign_w_ceil_leading_limb I0 bn'))
 /\ (forall I0 bn bn', shape_indep sav (assign_d_leading_limb I0 bn) (assign_d_leading_limb I0 bn'))
 /\ (forall x0 w w', shape_indep saint (assign_w x0 w) (assign_w x0 w'))
 /\ (forall x0 d d', shape_indep (both (Forall2 sav) sav) (assign_d x0 d) (assign_d x0 d'))
 /\ (forall x0 a a', saint a a' -> shape_indep saint (reduce x0 a) (reduce x0 a'))
 /\ (forall x0 a a', saint a a' -> shape_indep saint (conditionally_reduce x0 a) (conditionally_reduce x0 a'))
 /\ (forall x0 a a' b b', saint a a' -> saint b b' -> shape_indep saint (int_add x0 a b) (int_add x0 a' b'))
 /\ (forall x0 a a' b b', saint a a' -> saint b b' -> shape_indep saint (int_sub x0 a b) (int_sub x0 a' b'))
 /\ (forall x0 a a', saint a a' -> shape_indep saint (int_neg x0 a) (int_neg x0 a'))
 /\ (forall x0 a a' b b', saint a a' -> saint b b' -> shape_indep saint (int_mul x0 a b) (int_mul x0 a' b'))
 /\ (forall a a', saint a a' -> shape_indep sav (is_pure_zero a) (is_pure_zero a'))
 /\ (forall x0 a a', saint a a' -> shape_indep sav (is_pure_w_modulus x0 a) (is_pure_w_modulus x0 a'))
 /\ (forall x0 a a', saint a a' -> shape_indep sav (is_int_zero x0 a) (is_int_zero x0 a'))
 /\ (forall x0 a a' b b', saint a a' -> saint b b' -> shape_indep sav (is_int_equal x0 a b) (is_int_equal x0 a' b'))
 /\ (forall x0 a a' b b', saint a a' -> saint b b' -> shape_indep (both sav saint) (int_div x0 a b) (int_div x0 a' b'))
 /\ (forall x0 w, shape_indep saint (assign_int_constant x0 w) (assign_int_constant x0 w))
 /\ (forall x0 x x', saint x x' -> shape_indep saint (int_unsafe_invert x0 x) (int_unsafe_invert x0 x'))
 /\ (forall x0 a a' b b', saint a a' -> saint b b' -> shape_indep any (assert_int_equal x0 a b) (assert_int_equal x0 a' b'))
 /\ (forall x0 a a', saint a a' -> shape_indep saint (int_square x0 a) (int_square x0 a'))
 /\ (forall x0 a a' b, saint a a' -> shape_indep saint (int_mul_small_constant x0 a b) (int_mul_small_constant x0 a' b))
 /\ (forall x0 cond cond' a a' b b', sav cond cond' -> saint a a' -> saint b b' -> shape_indep saint (bisec_int x0 cond a b) (bisec_int x0 cond' a' b')).
Proof.
  intros NM.
  split; [exact sr_assign_common|].
  split; [exact sr_assign_limb|].
  split; [exact sr_assign_cache_value|].
  split; [exact sr_assign_selected_value|].
  split; [exact (@sr_assign_nonleading_limb NM)|].
  split; [exact (@sr_assign_w_ceil_leading_limb NM)|].
  split; [exact (@sr_assign_d_leading_limb NM)|].
  split; [exact (@sr_assign_w NM)|].
  split; [exact (@sr_assign_d NM)|].
  split; [exact (@sr_reduce NM)|].
  split; [exact (@sr_conditionally_reduce NM)|].
  split; [exact (@sr_int_add NM)|].
  split; [exact (@sr_int_sub NM)|].
  split; [exact (@sr_int_neg NM)|].
  split; [exact (@sr_int_mul NM)|].
  split; [exact (@sr_is_pure_zero NM)|].
  split; [exact (@sr_is_pure_w_modulus NM)|].
  split; [exact (@sr_is_int_zero NM)|].
  split; [exact (@sr_is_int_equal NM)|].
  split; [exact (@sr_int_div NM)|].
  split; [exact (@sr_assign_int_constant NM)|].
  split; [exact (@sr_int_unsafe_invert NM)|].
  split; [exact (@sr_assert_int_equal NM)|].
  split; [exact (@sr_int_square NM)|].
  split; [exact (@sr_int_mul_small_constant NM)|].
  exact (@sr_bisec_int NM).
Qed.

Lemma C25_ecc_main :
  forall (NM : NMod),
    (forall x0 p, shape_indep spt (assign_constant_point x0 p) (assign_constant_point x0 p))
 /\ (forall x0 x1 x x' y y', saint x x' -> saint y y' -> shape_indep (both saint saint) (curve_sides x0 x1 x y) (curve_sides x0 x1 x' y'))
 /\ (forall x0 x1 p p', shape_indep spt (assign_point x0 x1 p) (assign_point x0 x1 p'))
 /\ (forall x0 x1 p p', shape_indep snz (assign_non_zero_point x0 x1 p) (assign_non_zero_point x0 x1 p'))
 /\ (forall x0, shape_indep sptc (assign_identity x0) (assign_identity x0))
 /\ (forall x0 cond cond' a a' b b', sav cond cond' -> spt a a' -> spt b b' -> shape_indep spt (bisec_point x0 cond a b) (bisec_point x0 cond' a' b'))
 /\ (forall x0 cond cond' a a' b b', sav cond cond' -> scurv a a' -> scurv b b' -> shape_indep scurv (bisec_curvature x0 cond a b) (bisec_curvature x0 cond' a' b'))
 /\ (forall x0 cond cond' a a' b b', sav cond cond' -> sptc a a' -> sptc b b' -> shape_indep sptc (bisec_point_with_curvature x0 cond a b) (bisec_point_with_curvature x0 cond' a' b'))
 /\ (forall x0 lambda lambda' a a' b b', scurv lambda lambda' -> spt a a' -> spt b b' -> shape_indep spt (lambda_to_point x0 lambda a b) (lambda_to_point x0 lambda' a' b'))
 /\ (forall x0 a a' b b', sptc a a' -> spt b b' -> shape_indep spt (ecc_add x0 a b) (ecc_add x0 a' b'))
 /\ (forall x0 x1 a a', sptc a a' -> shape_indep spt (ecc_double x0 x1 a) (ecc_double x0 x1 a'))
 /\ (forall x0 a a' b b', spt a a' -> spt b b' -> shape_indep any (ecc_assert_equal x0 a b) (ecc_assert_equal x0 a' b'))
 /\ (forall x0 a a', spt a a' -> shape_indep spt (ecc_neg x0 a) (ecc_neg x0 a'))
 /\ (forall x0 a a', spt a a' -> shape_indep spt (ecc_reduce x0 a) (ecc_reduce x0 a'))
 /\ (forall x0 x x' y y', saint x x' -> saint y y' -> shape_indep (both sav saint) (curvature_of x0 x y) (curvature_of x0 x' y'))
 /\ (forall x0 a a', spt a a' -> shape_indep sptc (ecc_reduce_with_curvature x0 a) (ecc_reduce_with_curvature x0 a'))
 /\ (forall x0 a a', spt a a' -> shape_indep sptc (to_point_with_curvature x0 a) (to_point_with_curvature x0 a'))
 /\ (forall x0 p p', spt p p' -> shape_indep (Forall2 sav) (ecc_encode x0 p) (ecc_encode x0 p'))
 /\ (forall x0 p p' sc g offset, saint p p' -> shape_indep (@eq Z) (assign_cache_integer x0 p sc g offset) (assign_cache_integer x0 p' sc g offset))
 /\ (forall x0 p p' sc sc' g offset, sav sc sc' -> shape_indep (both saint (@eq Z)) (assign_selected_integer x0 p sc g offset) (assign_selected_integer x0 p' sc' g offset))
 /\ (forall x0 p p' g sc, sptc p p' -> shape_indep any (assign_cache_point x0 p g sc) (assign_cache_point x0 p' g sc))
 /\ (forall x0 p p' sc sc' g, sav sc sc' -> shape_indep sptc (assign_selected_point x0 p sc g) (assign_selected_point x0 p' sc' g))
 /\ (forall x0 lambda lambda' a a' b b', saint lambda lambda' -> snz a a' -> snz b b' -> shape_indep snz (lambda_to_point_non_zero x0 lambda a b) (lambda_to_point_non_zero x0 lambda' a' b'))
 /\ (forall x0 a a' b b', snz a a' -> snz b b' -> shape_indep_u snz (ecc_add_unsafe x0 a b) (ecc_add_unsafe x0 a' b'))
 /\ (forall x0 a a', snz a a' -> shape_indep_u snz (ecc_double_unsafe x0 a) (ecc_double_unsafe x0 a'))
 /\ (forall x0 a a', snz a a' -> shape_indep snz (ecc_neg_non_zero x0 a) (ecc_neg_non_zero x0 a'))
 /\ (forall x0 a a', snz a a' -> shape_indep snz (ecc_reduce_non_zero x0 a) (ecc_reduce_non_zero x0 a'))
 /\ (forall x0 cond cond' a a' b b', sav cond cond' -> snz a a' -> snz b b' -> shape_indep snz (ecc_bisec_non_zero_point x0 cond a b) (ecc_bisec_non_zero_point x0 cond' a' b'))
 /\ (forall x0 candidates candidates' group_bits group_bits', (Forall2 snz) candidates candidates' -> (Forall2 sav) group_bits group_bits' -> shape_indep snz (bisec_candidate_non_zero x0 candidates group_bits) (bisec_candidate_non_zero x0 candidates' group_bits'))
 /\ (forall candidates candidates' group_bits group_bits', (Forall2 sav) group_bits group_bits' -> shape_indep (both sav any) (pick_candidate_non_zero candidates group_bits) (pick_candidate_non_zero candidates' group_bits'))
 /\ (forall x0 p p' sc sc' g, sav sc sc' -> shape_indep snz (assign_selected_point_non_zero x0 p sc g) (assign_selected_point_non_zero x0 p' sc' g))
 /\ (forall x0 p p' g sc, snz p p' -> shape_indep any (assign_cache_point_non_zero x0 p g sc) (assign_cache_point_non_zero x0 p' g sc))
 /\ (forall x0 a a' b b', snz a a' -> snz b b' -> shape_indep any (ecc_assert_equal_non_zero x0 a b) (ecc_assert_equal_non_zero x0 a' b'))
 /\ (forall a a', snz a a' -> shape_indep spt (ecc_non_zero_point_downgrade a) (ecc_non_zero_point_downgrade a'))
 /\ (forall x0 a a' b b', spt a a' -> snz b b' -> shape_indep snz (ecc_bisec_to_non_zero_point x0 a b) (ecc_bisec_to_non_zero_point x0 a' b')).
Proof.
  intros NM.
  split; [exact (@sr_assign_constant_point NM)|].
  split; [exact (@sr_curve_sides NM)|].
  split; [exact (@sr_assign_point NM)|].
  split; [exact (@sr_assign_non_zero_point NM)|].
  split; [exact (@sr_assign_identity NM)|].
  split; [exact (@sr_bisec_point NM)|].
  split; [exact (@sr_bisec_curvature NM)|].
  split; [exact (@sr_bisec_point_with_curvature NM)|].
  split; [exact (@sr_lambda_to_point NM)|].
  split; [exact (@sr_ecc_add NM)|].
  split; [exact (@sr_ecc_double NM)|].
  split; [exact (@sr_ecc_assert_equal NM)|].
  split; [exact (@sr_ecc_neg NM)|].
  split; [exact (@sr_ecc_reduce NM)|].
  split; [exact (@sr_curvature_of NM)|].
  split; [exact (@sr_ecc_reduce_with_curvature NM)|].
  split; [exact (@sr_to_point_with_curvature NM)|].
  split; [exact (@sr_ecc_encode NM)|].
  split; [exact (@sr_assign_cache_integer NM)|].
  split; [exact (@sr_assign_selected_integer NM)|].
  split; [exact (@sr_assign_cache_point NM)|].
  split; [exact (@sr_assign_selected_point NM)|].
  split; [exact (@sr_lambda_to_point_non_zero NM)|].
  split; [exact (@sr_ecc_add_unsafe NM)|].
  split; [exact (@sr_ecc_double_unsafe NM)|].
  split; [exact (@sr_ecc_neg_non_zero NM)|].
  split; [exact (@sr_ecc_reduce_non_zero NM)|].
  split; [exact (@sr_ecc_bisec_non_zero_point NM)|].
  split; [exact (@sr_bisec_candidate_non_zero NM)|].
  split; [exact (@sr_pick_candidate_non_zero NM)|].
  split; [exact (@sr_assign_selected_point_non_zero NM)|].
  split; [exact (@sr_assign_cache_point_non_zero NM)|].
  split; [exact (@sr_ecc_assert_equal_non_zero NM)|].
  split; [exact (@sr_ecc_non_zero_point_downgrade NM)|].
  exact (@sr_ecc_bisec_to_non_zero_point NM).
Qed.

Lemma C25_msm_main :
  forall (NM : NMod),
    (forall W bits bits', (Forall2 sav) bits bits' -> shape_indep (Forall2 (Forall2 sav)) (to_windows W bits) (to_windows W bits'))
 /\ (forall W s s', sav s s' -> shape_indep (Forall2 (Forall2 sav)) (decompose_scalar_native W s) (decompose_scalar_native W s'))
 /\ (forall I0 W s s', saint s s' -> shape_indep (Forall2 (Forall2 sav)) (decompose_scalar_general I0 W s) (decompose_scalar_general I0 W s'))
 /\ (forall I b gen ra ra' rl rl' prefix points points' scalars scalars', Forall2 spt points points' -> Forall2 sav scalars scalars' ->
      shape_indep (both spt eq) (msm_native I b gen ra rl prefix points scalars) (msm_native I b gen ra' rl' prefix points' scalars'))
 /\ (forall I J b gen ra ra' rl rl' prefix points points' scalars scalars', Forall2 spt points points' -> Forall2 saint scalars scalars' ->
      shape_indep (both spt eq) (msm_general I J b gen ra rl prefix points scalars) (msm_general I J b gen ra' rl' prefix points' scalars')).
Proof.
  intros NM.
  split; [exact (@sr_to_windows NM)|].
  split; [exact (@sr_decompose_scalar_native NM)|].
  split; [exact (@sr_decompose_scalar_general NM)|].
  split; [intros I b; exact (sr_msm_native I b)|].
  intros I J b; exact (sr_msm_general I b J).
Qed.

