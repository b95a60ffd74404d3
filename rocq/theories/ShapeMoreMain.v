From Verif Require Import Prelude FieldZ Circuit Context Spec Logic Prims NativeMain BaseChip RangeInfo RangeChip IntegerChip EccChip ScalarChip Msm SpecShape Shape Moduli Fields
  PairingConsts Fq12Chip PairingChip KeccakChip SpecShapePairing ShapePairing KeccakShape SpecRecorder Progs ProgsMore ProgAppends SpecSelect SpecCalls NoCache SelectMain NoCacheMore.
Lemma C25_tower_main :
  forall (NM : NMod) (I : rinfo) (nonres : afq2 -> M afq2),
    (forall a a', sf2 a a' -> shape_indep sf2 (nonres a) (nonres a')) ->
    (forall x x', sf2 x x' -> shape_indep sf2 (fq2_reduce I x) (fq2_reduce I x'))
 /\ (forall x x' y y', sf2 x x' -> sf2 y y' -> shape_indep any (fq2_assert_equal I x y) (fq2_assert_equal I x' y'))
 /\ (shape_indep sf2 (fq2_assign_zero I ) (fq2_assign_zero I ))
 /\ (shape_indep sf2 (fq2_assign_one I ) (fq2_assign_one I ))
 /\ (forall c, shape_indep sf2 (fq2_assign_constant I c) (fq2_assign_constant I c))
 /\ (forall a a' b b', sf2 a a' -> sf2 b b' -> shape_indep sf2 (fq2_add I a b) (fq2_add I a' b'))
 /\ (forall a a' b b', sf2 a a' -> sf2 b b' -> shape_indep sf2 (fq2_mul I a b) (fq2_mul I a' b'))
 /\ (forall a a' b b', sf2 a a' -> sf2 b b' -> shape_indep sf2 (fq2_sub I a b) (fq2_sub I a' b'))
 /\ (forall a a', sf2 a a' -> shape_indep sf2 (fq2_double I a) (fq2_double I a'))
 /\ (forall a a', sf2 a a' -> shape_indep sf2 (fq2_square I a) (fq2_square I a'))
 /\ (forall a a', sf2 a a' -> shape_indep sf2 (fq2_neg I a) (fq2_neg I a'))
 /\ (forall a a', sf2 a a' -> shape_indep sf2 (fq2_conjugate I a) (fq2_conjugate I a'))
 /\ (forall x x', sf2 x x' -> shape_indep sf2 (fq2_unsafe_invert I x) (fq2_unsafe_invert I x'))
 /\ (forall x x', sf6 x x' -> shape_indep sf6 (fq6_reduce I x) (fq6_reduce I x'))
 /\ (forall x x' y y', sf6 x x' -> sf6 y y' -> shape_indep any (fq6_assert_equal I x y) (fq6_assert_equal I x' y'))
 /\ (shape_indep sf6 (fq6_assign_zero I ) (fq6_assign_zero I ))
 /\ (shape_indep sf6 (fq6_assign_one I ) (fq6_assign_one I ))
 /\ (forall a a' b b', sf6 a a' -> sf6 b b' -> shape_indep sf6 (fq6_add I a b) (fq6_add I a' b'))
 /\ (forall a a' b b', sf6 a a' -> sf6 b b' -> shape_indep sf6 (fq6_mul I nonres a b) (fq6_mul I nonres a' b'))
 /\ (forall a a' b b', sf6 a a' -> sf6 b b' -> shape_indep sf6 (fq6_sub I a b) (fq6_sub I a' b'))
 /\ (forall a a', sf6 a a' -> shape_indep sf6 (fq6_double I a) (fq6_double I a'))
 /\ (forall a a', sf6 a a' -> shape_indep sf6 (fq6_square I nonres a) (fq6_square I nonres a'))
 /\ (forall a a', sf6 a a' -> shape_indep sf6 (fq6_neg I a) (fq6_neg I a'))
 /\ (forall a a' b1 b1', sf6 a a' -> sf2 b1 b1' -> shape_indep sf6 (fq6_mul_by_1 I nonres a b1) (fq6_mul_by_1 I nonres a' b1'))
 /\ (forall a a' b0 b0' b1 b1', sf6 a a' -> sf2 b0 b0' -> sf2 b1 b1' -> shape_indep sf6 (fq6_mul_by_01 I nonres a b0 b1) (fq6_mul_by_01 I nonres a' b0' b1'))
 /\ (forall x x', sf6 x x' -> shape_indep sf6 (fq6_unsafe_invert I nonres x) (fq6_unsafe_invert I nonres x'))
 /\ (forall c, shape_indep sf6 (fq6_assign_constant I c) (fq6_assign_constant I c))
 /\ (forall a a', sf6 a a' -> shape_indep sf6 (fq6_mul_by_nonresidue nonres a) (fq6_mul_by_nonresidue nonres a'))
 /\ (forall x x', sf12 x x' -> shape_indep sf12 (fq12_reduce I x) (fq12_reduce I x'))
 /\ (forall x x' y y', sf12 x x' -> sf12 y y' -> shape_indep any (fq12_assert_eq I x y) (fq12_assert_eq I x' y'))
 /\ (shape_indep sf12 (fq12_assign_zero I ) (fq12_assign_zero I ))
 /\ (shape_indep sf12 (fq12_assign_one I ) (fq12_assign_one I ))
 /\ (forall x x', sf12 x x' -> shape_indep any (fq12_assert_one I x) (fq12_assert_one I x'))
 /\ (forall a a' b b', sf12 a a' -> sf12 b b' -> shape_indep sf12 (fq12_add I a b) (fq12_add I a' b'))
 /\ (forall a a' b b', sf12 a a' -> sf12 b b' -> shape_indep sf12 (fq12_mul I nonres a b) (fq12_mul I nonres a' b'))
 /\ (forall a a' b b', sf12 a a' -> sf12 b b' -> shape_indep sf12 (fq12_sub I a b) (fq12_sub I a' b'))
 /\ (forall a a', sf12 a a' -> shape_indep sf12 (fq12_double I a) (fq12_double I a'))
 /\ (forall a a', sf12 a a' -> shape_indep sf12 (fq12_square I nonres a) (fq12_square I nonres a'))
 /\ (forall a a', sf12 a a' -> shape_indep sf12 (fq12_neg I a) (fq12_neg I a'))
 /\ (forall x x', sf12 x x' -> shape_indep sf12 (fq12_conjugate I x) (fq12_conjugate I x'))
 /\ (forall x x' c0 c0' c1 c1' c4 c4', sf12 x x' -> sf2 c0 c0' -> sf2 c1 c1' -> sf2 c4 c4' -> shape_indep sf12 (fq12_mul_by_014 I nonres x c0 c1 c4) (fq12_mul_by_014 I nonres x' c0' c1' c4'))
 /\ (forall x x' c0 c0' c3 c3' c4 c4', sf12 x x' -> sf2 c0 c0' -> sf2 c3 c3' -> sf2 c4 c4' -> shape_indep sf12 (fq12_mul_by_034 I nonres x c0 c3 c4) (fq12_mul_by_034 I nonres x' c0' c3' c4'))
 /\ (forall a0 a0' a1 a1', sf2 a0 a0' -> sf2 a1 a1' -> shape_indep (both sf2 sf2) (fp4_square I nonres a0 a1) (fp4_square I nonres a0' a1'))
 /\ (forall x x', sf12 x x' -> shape_indep sf12 (fq12_cyclotomic_square I nonres x) (fq12_cyclotomic_square I nonres x'))
 /\ (forall x x', sf12 x x' -> shape_indep sf12 (fq12_unsafe_invert I nonres x) (fq12_unsafe_invert I nonres x'))
 /\ (forall c, shape_indep sf12 (fq12_assign_constant I c) (fq12_assign_constant I c)).
Proof.
  intros NM I nonres Hn.
  split; [exact (@sr_fq2_reduce NM I)|].
  split; [exact (@sr_fq2_assert_equal NM I)|].
  split; [exact (@sr_fq2_assign_zero NM I)|].
  split; [exact (@sr_fq2_assign_one NM I)|].
  split; [exact (@sr_fq2_assign_constant NM I)|].
  split; [exact (@sr_fq2_add NM I)|].
  split; [exact (@sr_fq2_mul NM I)|].
  split; [exact (@sr_fq2_sub NM I)|].
  split; [exact (@sr_fq2_double NM I)|].
  split; [exact (@sr_fq2_square NM I)|].
  split; [exact (@sr_fq2_neg NM I)|].
  split; [exact (@sr_fq2_conjugate NM I)|].
  split; [exact (@sr_fq2_unsafe_invert NM I)|].
  split; [exact (@sr_fq6_reduce NM I)|].
  split; [exact (@sr_fq6_assert_equal NM I)|].
  split; [exact (@sr_fq6_assign_zero NM I)|].
  split; [exact (@sr_fq6_assign_one NM I)|].
  split; [exact (@sr_fq6_add NM I)|].
  split; [exact (@sr_fq6_mul NM I nonres Hn)|].
  split; [exact (@sr_fq6_sub NM I)|].
  split; [exact (@sr_fq6_double NM I)|].
  split; [exact (@sr_fq6_square NM I nonres Hn)|].
  split; [exact (@sr_fq6_neg NM I)|].
  split; [exact (@sr_fq6_mul_by_1 NM I nonres Hn)|].
  split; [exact (@sr_fq6_mul_by_01 NM I nonres Hn)|].
  split; [exact (@sr_fq6_unsafe_invert NM I nonres Hn)|].
  split; [exact (@sr_fq6_assign_constant NM I)|].
  split; [exact (@sr_fq6_mul_by_nonresidue nonres Hn)|].
  split; [exact (@sr_fq12_reduce NM I)|].
  split; [exact (@sr_fq12_assert_eq NM I)|].
  split; [exact (@sr_fq12_assign_zero NM I)|].
  split; [exact (@sr_fq12_assign_one NM I)|].
  split; [exact (@sr_fq12_assert_one NM I)|].
  split; [exact (@sr_fq12_add NM I)|].
  split; [exact (@sr_fq12_mul NM I nonres Hn)|].
  split; [exact (@sr_fq12_sub NM I)|].
  split; [exact (@sr_fq12_double NM I)|].
  split; [exact (@sr_fq12_square NM I nonres Hn)|].
  split; [exact (@sr_fq12_neg NM I)|].
  split; [exact (@sr_fq12_conjugate NM I)|].
  split; [exact (@sr_fq12_mul_by_014 NM I nonres Hn)|].
  split; [exact (@sr_fq12_mul_by_034 NM I nonres Hn)|].
  split; [exact (@sr_fp4_square NM I nonres Hn)|].
  split; [exact (@sr_fq12_cyclotomic_square NM I nonres Hn)|].
  split; [exact (@sr_fq12_unsafe_invert NM I nonres Hn)|].
  exact (@sr_fq12_assign_constant NM I).
Qed.

Lemma C25_pairing_main :
  forall (NM : NMod) (I : rinfo),
    (forall pt pt', sg2 pt pt' -> shape_indep (both sg2 scoeff) (doubling_step I pt) (doubling_step I pt'))
 /\ (forall pt pt' pq pq', sg2 pt pt' -> sg2a pq pq' -> shape_indep (both sg2 scoeff) (addition_step I pt pq) (addition_step I pt' pq'))
 /\ (forall g g', sg2a g g' -> shape_indep sg2 (g2affine_to_g2 I g) (g2affine_to_g2 I g'))
 /\ (forall g g', sg2a g g' -> shape_indep sg2a (g2_neg I g) (g2_neg I g'))
 /\ (forall a a', sf2 a a' -> shape_indep sf2 (bn_nonres I a) (bn_nonres I a'))
 /\ (forall x x' power, sf2 x x' -> shape_indep sf2 (bn_fq2_frobenius_map I x power) (bn_fq2_frobenius_map I x' power))
 /\ (forall x x' power, sf6 x x' -> shape_indep sf6 (bn_fq6_frobenius_map I x power) (bn_fq6_frobenius_map I x' power))
 /\ (forall x x' power, sf12 x x' -> shape_indep sf12 (bn_fq12_frobenius_map I x power) (bn_fq12_frobenius_map I x' power))
 /\ (forall g2 g2' neg_g2 neg_g2' r r', sg2a g2 g2' -> sg2a neg_g2 neg_g2' -> sg2 r r' -> shape_indep (both sg2 (Forall2 scoeff)) (bn_prepare_loop I g2 neg_g2 r) (bn_prepare_loop I g2' neg_g2' r'))
 /\ (forall g2 g2', sg2a g2 g2' -> shape_indep (Forall2 scoeff) (bn_prepare_g2 I g2) (bn_prepare_g2 I g2'))
 /\ (forall f f' k k' p p', sf12 f f' -> scoeff k k' -> spt p p' -> shape_indep sf12 (bn_ell I f k p) (bn_ell I f' k' p'))
 /\ (forall terms terms', Forall2 (both spt (Forall2 scoeff)) terms terms' -> shape_indep sf12 (bn_multi_miller_loop I terms) (bn_multi_miller_loop I terms'))
 /\ (forall f f', sf12 f f' -> shape_indep sf12 (bn_exp_by_x I f) (bn_exp_by_x I f'))
 /\ (forall f f', sf12 f f' -> shape_indep sf12 (bn_final_exponentiation I f) (bn_final_exponentiation I f'))
 /\ (forall a a', sf2 a a' -> shape_indep sf2 (bls_nonres I a) (bls_nonres I a'))
 /\ (forall x x' _power, sf2 x x' -> shape_indep sf2 (bls_fq2_frobenius_map I x _power) (bls_fq2_frobenius_map I x' _power))
 /\ (forall x x' power, sf6 x x' -> shape_indep sf6 (bls_fq6_frobenius_map I x power) (bls_fq6_frobenius_map I x' power))
 /\ (forall x x' power, sf12 x x' -> shape_indep sf12 (bls_fq12_frobenius_map I x power) (bls_fq12_frobenius_map I x' power))
 /\ (forall f f' k k' p p', sf12 f f' -> scoeff k k' -> spt p p' -> shape_indep sf12 (bls_ell I f k p) (bls_ell I f' k' p'))
 /\ (forall f f', sf12 f f' -> shape_indep sf12 (bls_cycolotomic_exp I f) (bls_cycolotomic_exp I f'))
 /\ (forall g2 g2', sg2a g2 g2' -> shape_indep (Forall2 scoeff) (bls_prepare_g2 I g2) (bls_prepare_g2 I g2'))
 /\ (forall terms terms', Forall2 (both spt (Forall2 scoeff)) terms terms' -> shape_indep sf12 (bls_multi_miller_loop I terms) (bls_multi_miller_loop I terms'))
 /\ (forall f f', sf12 f f' -> shape_indep sf12 (bls_final_exponentiation I f) (bls_final_exponentiation I f'))
 /\ (forall terms terms', Forall2 (both spt sg2a) terms terms' -> shape_indep sf12 (bn_pairing I terms) (bn_pairing I terms'))
 /\ (forall terms terms', Forall2 (both spt sg2a) terms terms' -> shape_indep any (bn_check_pairing I terms) (bn_check_pairing I terms'))
 /\ (forall terms terms', Forall2 (both spt sg2a) terms terms' -> shape_indep sf12 (bls_pairing I terms) (bls_pairing I terms'))
 /\ (forall terms terms', Forall2 (both spt sg2a) terms terms' -> shape_indep any (bls_check_pairing I terms) (bls_check_pairing I terms')).
Proof.
  intros NM I.
  split; [exact (@sr_doubling_step NM I)|].
  split; [exact (@sr_addition_step NM I)|].
  split; [exact (@sr_g2affine_to_g2 NM I)|].
  split; [exact (@sr_g2_neg NM I)|].
  split; [exact (@sr_bn_nonres NM I)|].
  split; [exact (@sr_bn_fq2_frobenius_map NM I)|].
  split; [exact (@sr_bn_fq6_frobenius_map NM I)|].
  split; [exact (@sr_bn_fq12_frobenius_map NM I)|].
  split; [exact (@sr_bn_prepare_loop NM I)|].
  split; [exact (@sr_bn_prepare_g2 NM I)|].
  split; [exact (@sr_bn_ell NM I)|].
  split; [exact (@sr_bn_multi_miller_loop NM I)|].
  split; [exact (@sr_bn_exp_by_x NM I)|].
  split; [exact (@sr_bn_final_exponentiation NM I)|].
  split; [exact (@sr_bls_nonres NM I)|].
  split; [exact (@sr_bls_fq2_frobenius_map NM I)|].
  split; [exact (@sr_bls_fq6_frobenius_map NM I)|].
  split; [exact (@sr_bls_fq12_frobenius_map NM I)|].
  split; [exact (@sr_bls_ell NM I)|].
  split; [exact (@sr_bls_cycolotomic_exp NM I)|].
  split; [exact (@sr_bls_prepare_g2 NM I)|].
  split; [exact (@sr_bls_multi_miller_loop NM I)|].
  split; [exact (@sr_bls_final_exponentiation NM I)|].
  split; [exact (@sr_bn_pairing NM I)|].
  split; [exact (@sr_bn_check_pairing NM I)|].
  split; [exact (@sr_bls_pairing NM I)|].
  exact (@sr_bls_check_pairing NM I).
Qed.

Lemma C25_keccak_main :
  forall (NM : NMod),
    (forall st st', sstate st st' -> shape_indep sstate (theta st) (theta st'))
 /\ (forall st st', sstate st st' -> shape_indep sstate (xi st) (xi st'))
 /\ (forall st st' i, sstate st st' -> shape_indep sstate (iota st i) (iota st' i))
 /\ (forall st st', sstate st st' -> shape_indep sstate (permute st) (permute st'))
 /\ (forall st st' i i', sstate st st' -> slane i i' -> shape_indep sstate (absorb st i) (absorb st' i'))
 /\ (forall s s', sav s s' -> shape_indep slane (decompose_scalar_as_u256_be s) (decompose_scalar_as_u256_be s'))
 /\ (forall input input', Forall2 sav input input' -> shape_indep sav (hash input) (hash input')).
Proof.
  intros NM.
  split; [exact (@sr_theta NM)|]. split; [exact (@sr_xi NM)|]. split; [exact (@sr_iota NM)|]. split; [exact (@sr_permute NM)|]. split; [exact (@sr_absorb NM)|].
  split; [intros; unfold decompose_scalar_as_u256_be; apply sr_decompose_u256; assumption|].
  intros l l' H. unfold hash. apply sr_hash_with. induction H; cbn [map]; constructor; auto.
Qed.

Lemma C09_programs_only_append_main :
  forall (NM : NMod) X (m : M X), program m -> append_only m.
Proof.
  intros NM X m H. apply append_only_of. apply program_appends. exact H.
Qed.

Lemma C09_all_gadgets_are_programs_main :
  forall (NM : NMod) (I : rinfo) (nonres : afq2 -> M afq2), (forall a, gadget (nonres a)) ->
    (forall pairs constant muls next, gadget (one_line pairs constant muls next))
 /\ (forall pairs tail constant muls next, gadget (one_line_with_last pairs tail constant muls next))
 /\ (forall bn k b, gadget (assign_limb bn k b))
 /\ (forall bn, gadget (assign_common bn))
 /\ (forall v off g sc, gadget (assign_cache_value v off g sc))
 /\ (forall v off g sc, gadget (assign_selected_value v off g sc))
 /\ (forall p c, gadget (one_line_add p c))
 /\ (forall e c, gadget (sum_with_constant_in_one_line e c))
 /\ (forall e c, gadget (sum_with_constant e c))
 /\ (forall a b, gadget (add a b))
 /\ (forall a b, gadget (add_constant a b))
 /\ (forall a b, gadget (sub a b))
 /\ (forall a b, gadget (mul a b))
 /\ (forall a b c, gadget (mul_add_constant a b c))
 /\ (forall a b c d e, gadget (mul_add a b c d e))
 /\ (forall f t ls, gadget (mul_add_lines f t ls))
 /\ (forall ls, gadget (mul_add_with_next_line ls))
 /\ (forall a, gadget (invert_unsafe a))
 /\ (forall a, gadget (invert a))
 /\ (forall a, gadget (is_zero a))
 /\ (forall a b, gadget (div_unsafe a b))
 /\ (forall a, gadget (assign_constant a))
 /\ (forall a, gadget (assign a))
 /\ (forall a, gadget (assign_bit a))
 /\ (forall a b, gadget (assert_equal a b))
 /\ (forall a b, gadget (assert_constant a b))
 /\ (forall a, gadget (assert_bit a))
 /\ (forall a b, gadget (and_ a b))
 /\ (forall a, gadget (not_ a))
 /\ (forall a b, gadget (not_and a b))
 /\ (forall a b, gadget (or_ a b))
 /\ (forall a b, gadget (xor_ a b))
 /\ (forall a b, gadget (xnor_ a b))
 /\ (forall c a b, gadget (bisec c a b))
 /\ (forall c a b, gadget (bisec_cond c a b))
 /\ (forall a, gadget (assert_true a))
 /\ (forall a, gadget (assert_false a))
 /\ (forall a, gadget (try_assert_false a))
 /\ (forall l, gadget (native_of I l))
 /\ (forall bn, gadget (assign_nonleading_limb bn))
 /\ (forall bn, gadget (assign_w_ceil_leading_limb I bn))
 /\ (forall bn, gadget (assign_d_leading_limb I bn))
 /\ (forall a b d p, gadget (mul_column I a b d p))
 /\ (forall u, gadget (mul_carry I u))
 /\ (forall a b d rem, gadget (mul_equation_on_limbs I a b d rem))
 /\ (forall a b d rem, gadget (mul_equation_on_native I a b d rem))
 /\ (forall x, gadget (assign_w I x))
 /\ (forall x, gadget (assign_d I x))
 /\ (forall a d r ad ar l i, gadget (reduce_step I a d r ad ar l i))
 /\ (forall a, gadget (reduce I a))
 /\ (forall a, gadget (conditionally_reduce I a))
 /\ (forall t, gadget (pad_of I t))
 /\ (forall a b, gadget (int_add I a b))
 /\ (forall a b, gadget (int_sub I a b))
 /\ (forall a, gadget (int_neg I a))
 /\ (forall a b, gadget (int_mul I a b))
 /\ (forall a, gadget (is_pure_zero a))
 /\ (forall a, gadget (is_pure_w_modulus I a))
 /\ (forall a, gadget (is_int_zero I a))
 /\ (forall a b, gadget (is_int_equal I a b))
 /\ (forall a b, gadget (int_div I a b))
 /\ (forall a, gadget (assign_int_constant I a))
 /\ (forall a, gadget (int_unsafe_invert I a))
 /\ (forall a b, gadget (assert_int_equal I a b))
 /\ (forall a, gadget (int_square I a))
 /\ (forall a k, gadget (int_mul_small_constant I a k))
 /\ (forall c a b, gadget (bisec_int I c a b))
 /\ (forall p, gadget (assign_constant_point I p))
 /\ (forall cb x y, gadget (curve_sides I cb x y))
 /\ (forall cb p, gadget (assign_point I cb p))
 /\ (forall cb p, gadget (assign_non_zero_point I cb p))
 /\ (gadget (assign_identity I))
 /\ (forall k a b, gadget (bisec_point I k a b))
 /\ (forall k a b, gadget (bisec_curvature I k a b))
 /\ (forall k a b, gadget (bisec_point_with_curvature I k a b))
 /\ (forall l ax ay bx, gadget (lambda_xy I l ax ay bx))
 /\ (forall l a b, gadget (lambda_to_point I l a b))
 /\ (forall a b, gadget (ecc_add I a b))
 /\ (forall ord a, gadget (ecc_double I ord a))
 /\ (forall a b, gadget (ecc_assert_equal I a b))
 /\ (forall a, gadget (ecc_neg I a))
 /\ (forall a, gadget (ecc_reduce I a))
 /\ (forall x y, gadget (curvature_of I x y))
 /\ (forall a, gadget (ecc_reduce_with_curvature I a))
 /\ (forall a, gadget (to_point_with_curvature I a))
 /\ (forall a, gadget (ecc_encode I a))
 /\ (forall l a b, gadget (lambda_to_point_non_zero I l a b))
 /\ (forall a b, gadget (ecc_add_unsafe I a b))
 /\ (forall a, gadget (ecc_double_unsafe I a))
 /\ (forall a, gadget (ecc_neg_non_zero I a))
 /\ (forall a, gadget (ecc_reduce_non_zero I a))
 /\ (forall k a b, gadget (ecc_bisec_non_zero_point I k a b))
 /\ (forall a b, gadget (ecc_assert_equal_non_zero I a b))
 /\ (forall a, gadget (ecc_non_zero_point_downgrade a))
 /\ (forall a b, gadget (ecc_bisec_to_non_zero_point I a b))
 /\ (forall W b, gadget (to_windows W b))
 /\ (forall s st i, gadget (native_step s st i))
 /\ (forall W s, gadget (decompose_scalar_native W s))
 /\ (forall t v st i, gadget (general_step t v st i))
 /\ (forall t l, gadget (general_limb t l))
 /\ (forall W s, gadget (decompose_scalar_general I W s))
 /\ (forall p sc g off, gadget (assign_cache_integer I p sc g off))
 /\ (forall p sc g off, gadget (assign_selected_integer I p sc g off))
 /\ (forall p g sc, gadget (assign_cache_point_non_zero I p g sc))
 /\ (forall p sc g, gadget (assign_selected_point_non_zero I p sc g))
 /\ (forall p g sc, gadget (assign_cache_point I p g sc))
 /\ (forall p sc g, gadget (assign_selected_point I p sc g))
 /\ (forall cs bs, gadget (pick_candidate_non_zero cs bs))
 /\ (forall x, gadget (fq2_reduce I x))
 /\ (forall x y, gadget (fq2_assert_equal I x y))
 /\ (gadget (fq2_assign_zero I))
 /\ (gadget (fq2_assign_one I))
 /\ (forall c, gadget (fq2_assign_constant I c))
 /\ (forall a b, gadget (fq2_add I a b))
 /\ (forall a b, gadget (fq2_mul I a b))
 /\ (forall a b, gadget (fq2_sub I a b))
 /\ (forall a, gadget (fq2_double I a))
 /\ (forall a, gadget (fq2_square I a))
 /\ (forall a, gadget (fq2_neg I a))
 /\ (forall a, gadget (fq2_conjugate I a))
 /\ (forall x, gadget (fq2_unsafe_invert I x))
 /\ (forall x, gadget (fq6_reduce I x))
 /\ (forall x y, gadget (fq6_assert_equal I x y))
 /\ (gadget (fq6_assign_zero I))
 /\ (gadget (fq6_assign_one I))
 /\ (forall a b, gadget (fq6_add I a b))
 /\ (forall a b, gadget (fq6_mul I nonres a b))
 /\ (forall a b, gadget (fq6_sub I a b))
 /\ (forall a, gadget (fq6_double I a))
 /\ (forall a, gadget (fq6_square I nonres a))
 /\ (forall a, gadget (fq6_neg I a))
 /\ (forall a b1, gadget (fq6_mul_by_1 I nonres a b1))
 /\ (forall a b0 b1, gadget (fq6_mul_by_01 I nonres a b0 b1))
 /\ (forall x, gadget (fq6_unsafe_invert I nonres x))
 /\ (forall c, gadget (fq6_assign_constant I c))
 /\ (forall a, gadget (fq6_mul_by_nonresidue nonres a))
 /\ (forall x, gadget (fq12_reduce I x))
 /\ (forall x y, gadget (fq12_assert_eq I x y))
 /\ (gadget (fq12_assign_zero I))
 /\ (gadget (fq12_assign_one I))
 /\ (forall x, gadget (fq12_assert_one I x))
 /\ (forall a b, gadget (fq12_add I a b))
 /\ (forall a b, gadget (fq12_mul I nonres a b))
 /\ (forall a b, gadget (fq12_sub I a b))
 /\ (forall a, gadget (fq12_double I a))
 /\ (forall a, gadget (fq12_square I nonres a))
 /\ (forall a, gadget (fq12_neg I a))
 /\ (forall x, gadget (fq12_conjugate I x))
 /\ (forall x c0 c1 c4, gadget (fq12_mul_by_014 I nonres x c0 c1 c4))
 /\ (forall x c0 c3 c4, gadget (fq12_mul_by_034 I nonres x c0 c3 c4))
 /\ (forall a0 a1, gadget (fp4_square I nonres a0 a1))
 /\ (forall x, gadget (fq12_cyclotomic_square I nonres x))
 /\ (forall x, gadget (fq12_unsafe_invert I nonres x))
 /\ (forall c, gadget (fq12_assign_constant I c))
 /\ (forall pt, gadget (doubling_step I pt))
 /\ (forall pt pq, gadget (addition_step I pt pq))
 /\ (forall g, gadget (g2affine_to_g2 I g))
 /\ (forall g, gadget (g2_neg I g))
 /\ (forall a, gadget (bn_nonres I a))
 /\ (forall x power, gadget (bn_fq2_frobenius_map I x power))
 /\ (forall x power, gadget (bn_fq6_frobenius_map I x power))
 /\ (forall x power, gadget (bn_fq12_frobenius_map I x power))
 /\ (forall g2 neg_g2 r, gadget (bn_prepare_loop I g2 neg_g2 r))
 /\ (forall g2, gadget (bn_prepare_g2 I g2))
 /\ (forall f k p, gadget (bn_ell I f k p))
 /\ (forall terms, gadget (bn_multi_miller_loop I terms))
 /\ (forall f, gadget (bn_exp_by_x I f))
 /\ (forall f, gadget (bn_final_exponentiation I f))
 /\ (forall a, gadget (bls_nonres I a))
 /\ (forall x _power, gadget (bls_fq2_frobenius_map I x _power))
 /\ (forall x power, gadget (bls_fq6_frobenius_map I x power))
 /\ (forall x power, gadget (bls_fq12_frobenius_map I x power))
 /\ (forall f k p, gadget (bls_ell I f k p))
 /\ (forall f, gadget (bls_cycolotomic_exp I f))
 /\ (forall g2, gadget (bls_prepare_g2 I g2))
 /\ (forall terms, gadget (bls_multi_miller_loop I terms))
 /\ (forall f, gadget (bls_final_exponentiation I f))
 /\ (forall terms, gadget (bn_pairing I terms))
 /\ (forall terms, gadget (bn_check_pairing I terms))
 /\ (forall terms, gadget (bls_pairing I terms))
 /\ (forall terms, gadget (bls_check_pairing I terms))
 /\ (forall a b, gadget (xor_lanes a b))
 /\ (gadget (k_init))
 /\ (forall st, gadget (theta st))
 /\ (forall st, gadget (xi st))
 /\ (forall st round, gadget (iota st round))
 /\ (forall st, gadget (permute st))
 /\ (forall st input, gadget (absorb st input))
 /\ (forall s_bn st i, gadget (u256_step s_bn st i))
 /\ (forall s_bn s, gadget (decompose_u256_with s_bn s))
 /\ (forall s, gadget (decompose_scalar_as_u256_be s))
 /\ (forall acc s, gadget (compose_loop acc s))
 /\ (forall s, gadget (compose_to_scalar_be s))
 /\ (forall input, gadget (hash_with input))
 /\ (forall input, gadget (hash input))
 /\ (forall b gen ra rl prefix points scalars, program (msm_native I b gen ra rl prefix points scalars))
 /\ (forall J b gen ra rl prefix points scalars, program (msm_general I J b gen ra rl prefix points scalars)).
Proof.
  intros NM I nonres Hn.
  split; [intros; apply pg_one_line; assumption|].
  split; [intros; apply pg_one_line_with_last; assumption|].
  split; [intros; apply pg_assign_limb; assumption|].
  split; [intros; apply pg_assign_common; assumption|].
  split; [intros; apply pg_assign_cache_value; assumption|].
  split; [intros; apply pg_assign_selected_value; assumption|].
  split; [intros; apply pg_one_line_add; assumption|].
  split; [intros; apply pg_swcol; assumption|].
  split; [intros; apply pg_swc; assumption|].
  split; [intros; apply pg_add; assumption|].
  split; [intros; apply pg_add_constant; assumption|].
  split; [intros; apply pg_sub; assumption|].
  split; [intros; apply pg_mul; assumption|].
  split; [intros; apply pg_mul_add_constant; assumption|].
  split; [intros; apply pg_mul_add; assumption|].
  split; [intros; apply pg_mul_add_lines; assumption|].
  split; [intros; apply pg_mawnl; assumption|].
  split; [intros; apply pg_invert_unsafe; assumption|].
  split; [intros; apply pg_invert; assumption|].
  split; [intros; apply pg_is_zero; assumption|].
  split; [intros; apply pg_div_unsafe; assumption|].
  split; [intros; apply pg_assign_constant; assumption|].
  split; [intros; apply pg_assign; assumption|].
  split; [intros; apply pg_assign_bit; assumption|].
  split; [intros; apply pg_assert_equal; assumption|].
  split; [intros; apply pg_assert_constant; assumption|].
  split; [intros; apply pg_assert_bit; assumption|].
  split; [intros; apply pg_and; assumption|].
  split; [intros; apply pg_not; assumption|].
  split; [intros; apply pg_not_and; assumption|].
  split; [intros; apply pg_or; assumption|].
  split; [intros; apply pg_xor; assumption|].
  split; [intros; apply pg_xnor; assumption|].
  split; [intros; apply pg_bisec; assumption|].
  split; [intros; apply pg_bisec_cond; assumption|].
  split; [intros; apply pg_assert_true; assumption|].
  split; [intros; apply pg_assert_false; assumption|].
  split; [intros; apply pg_try_assert_false; assumption|].
  split; [intros; apply pg_native_of; assumption|].
  split; [intros; apply pg_nonleading; assumption|].
  split; [intros; apply pg_w_lead; assumption|].
  split; [intros; apply pg_d_lead; assumption|].
  split; [intros; apply pg_mul_column; assumption|].
  split; [intros; apply pg_mul_carry; assumption|].
  split; [intros; apply pg_mul_limbs; assumption|].
  split; [intros; apply pg_mul_native; assumption|].
  split; [intros; apply pg_assign_w; assumption|].
  split; [intros; apply pg_assign_d; assumption|].
  split; [intros; apply pg_reduce_step; assumption|].
  split; [intros; apply pg_reduce; assumption|].
  split; [intros; apply pg_cond_reduce; assumption|].
  split; [intros; apply pg_pad_of; assumption|].
  split; [intros; apply pg_int_add; assumption|].
  split; [intros; apply pg_int_sub; assumption|].
  split; [intros; apply pg_int_neg; assumption|].
  split; [intros; apply pg_int_mul; assumption|].
  split; [intros; apply pg_is_pure_zero; assumption|].
  split; [intros; apply pg_is_pure_w; assumption|].
  split; [intros; apply pg_is_int_zero; assumption|].
  split; [intros; apply pg_is_int_equal; assumption|].
  split; [intros; apply pg_int_div; assumption|].
  split; [intros; apply pg_assign_int_constant; assumption|].
  split; [intros; apply pg_int_unsafe_invert; assumption|].
  split; [intros; apply pg_assert_int_equal; assumption|].
  split; [intros; apply pg_int_square; assumption|].
  split; [intros; apply pg_int_mul_small; assumption|].
  split; [intros; apply pg_bisec_int; assumption|].
  split; [intros; apply pg_assign_constant_point; assumption|].
  split; [intros; apply pg_curve_sides; assumption|].
  split; [intros; apply pg_assign_point; assumption|].
  split; [intros; apply pg_assign_non_zero_point; assumption|].
  split; [intros; apply pg_assign_identity; assumption|].
  split; [intros; apply pg_bisec_point; assumption|].
  split; [intros; apply pg_bisec_curvature; assumption|].
  split; [intros; apply pg_bisec_pointc; assumption|].
  split; [intros; apply pg_lambda_xy; assumption|].
  split; [intros; apply pg_lambda_to_point; assumption|].
  split; [intros; apply pg_ecc_add; assumption|].
  split; [intros; apply pg_ecc_double; assumption|].
  split; [intros; apply pg_ecc_assert_equal; assumption|].
  split; [intros; apply pg_ecc_neg; assumption|].
  split; [intros; apply pg_ecc_reduce; assumption|].
  split; [intros; apply pg_curvature_of; assumption|].
  split; [intros; apply pg_ecc_reduce_with_curvature; assumption|].
  split; [intros; apply pg_to_pointc; assumption|].
  split; [intros; apply pg_ecc_encode; assumption|].
  split; [intros; apply pg_lambda_nz; assumption|].
  split; [intros; apply pg_ecc_add_unsafe; assumption|].
  split; [intros; apply pg_ecc_double_unsafe; assumption|].
  split; [intros; apply pg_ecc_neg_nz; assumption|].
  split; [intros; apply pg_ecc_reduce_nz; assumption|].
  split; [intros; apply pg_ecc_bisec_nz; assumption|].
  split; [intros; apply pg_assert_equal_nz; assumption|].
  split; [intros; apply pg_downgrade; assumption|].
  split; [intros; apply pg_bisec_to_nz; assumption|].
  split; [intros; apply pg_to_windows; assumption|].
  split; [intros; apply pg_native_step; assumption|].
  split; [intros; apply pg_dec_native; assumption|].
  split; [intros; apply pg_general_step; assumption|].
  split; [intros; apply pg_general_limb; assumption|].
  split; [intros; apply pg_dec_general; assumption|].
  split; [intros; apply pg_assign_cache_integer; assumption|].
  split; [intros; apply pg_assign_selected_integer; assumption|].
  split; [intros; apply pg_assign_cache_point_non_zero; assumption|].
  split; [intros; apply pg_assign_selected_point_non_zero; assumption|].
  split; [intros; apply pg_assign_cache_point; assumption|].
  split; [intros; apply pg_assign_selected_point; assumption|].
  split; [intros; apply pg_pick_candidate; assumption|].
  split; [intros; apply pg_fq2_reduce; assumption|].
  split; [intros; apply pg_fq2_assert_equal; assumption|].
  split; [intros; apply pg_fq2_assign_zero; assumption|].
  split; [intros; apply pg_fq2_assign_one; assumption|].
  split; [intros; apply pg_fq2_assign_constant; assumption|].
  split; [intros; apply pg_fq2_add; assumption|].
  split; [intros; apply pg_fq2_mul; assumption|].
  split; [intros; apply pg_fq2_sub; assumption|].
  split; [intros; apply pg_fq2_double; assumption|].
  split; [intros; apply pg_fq2_square; assumption|].
  split; [intros; apply pg_fq2_neg; assumption|].
  split; [intros; apply pg_fq2_conjugate; assumption|].
  split; [intros; apply pg_fq2_unsafe_invert; assumption|].
  split; [intros; apply pg_fq6_reduce; assumption|].
  split; [intros; apply pg_fq6_assert_equal; assumption|].
  split; [intros; apply pg_fq6_assign_zero; assumption|].
  split; [intros; apply pg_fq6_assign_one; assumption|].
  split; [intros; apply pg_fq6_add; assumption|].
  split; [intros; apply pg_fq6_mul; assumption|].
  split; [intros; apply pg_fq6_sub; assumption|].
  split; [intros; apply pg_fq6_double; assumption|].
  split; [intros; apply pg_fq6_square; assumption|].
  split; [intros; apply pg_fq6_neg; assumption|].
  split; [intros; apply pg_fq6_mul_by_1; assumption|].
  split; [intros; apply pg_fq6_mul_by_01; assumption|].
  split; [intros; apply pg_fq6_unsafe_invert; assumption|].
  split; [intros; apply pg_fq6_assign_constant; assumption|].
  split; [intros; apply pg_fq6_mul_by_nonresidue; assumption|].
  split; [intros; apply pg_fq12_reduce; assumption|].
  split; [intros; apply pg_fq12_assert_eq; assumption|].
  split; [intros; apply pg_fq12_assign_zero; assumption|].
  split; [intros; apply pg_fq12_assign_one; assumption|].
  split; [intros; apply pg_fq12_assert_one; assumption|].
  split; [intros; apply pg_fq12_add; assumption|].
  split; [intros; apply pg_fq12_mul; assumption|].
  split; [intros; apply pg_fq12_sub; assumption|].
  split; [intros; apply pg_fq12_double; assumption|].
  split; [intros; apply pg_fq12_square; assumption|].
  split; [intros; apply pg_fq12_neg; assumption|].
  split; [intros; apply pg_fq12_conjugate; assumption|].
  split; [intros; apply pg_fq12_mul_by_014; assumption|].
  split; [intros; apply pg_fq12_mul_by_034; assumption|].
  split; [intros; apply pg_fp4_square; assumption|].
  split; [intros; apply pg_fq12_cyclotomic_square; assumption|].
  split; [intros; apply pg_fq12_unsafe_invert; assumption|].
  split; [intros; apply pg_fq12_assign_constant; assumption|].
  split; [intros; apply pg_doubling_step; assumption|].
  split; [intros; apply pg_addition_step; assumption|].
  split; [intros; apply pg_g2affine_to_g2; assumption|].
  split; [intros; apply pg_g2_neg; assumption|].
  split; [intros; apply pg_bn_nonres; assumption|].
  split; [intros; apply pg_bn_fq2_frobenius_map; assumption|].
  split; [intros; apply pg_bn_fq6_frobenius_map; assumption|].
  split; [intros; apply pg_bn_fq12_frobenius_map; assumption|].
  split; [intros; apply pg_bn_prepare_loop; assumption|].
  split; [intros; apply pg_bn_prepare_g2; assumption|].
  split; [intros; apply pg_bn_ell; assumption|].
  split; [intros; apply pg_bn_multi_miller_loop; assumption|].
  split; [intros; apply pg_bn_exp_by_x; assumption|].
  split; [intros; apply pg_bn_final_exponentiation; assumption|].
  split; [intros; apply pg_bls_nonres; assumption|].
  split; [intros; apply pg_bls_fq2_frobenius_map; assumption|].
  split; [intros; apply pg_bls_fq6_frobenius_map; assumption|].
  split; [intros; apply pg_bls_fq12_frobenius_map; assumption|].
  split; [intros; apply pg_bls_ell; assumption|].
  split; [intros; apply pg_bls_cycolotomic_exp; assumption|].
  split; [intros; apply pg_bls_prepare_g2; assumption|].
  split; [intros; apply pg_bls_multi_miller_loop; assumption|].
  split; [intros; apply pg_bls_final_exponentiation; assumption|].
  split; [intros; apply pg_bn_pairing; assumption|].
  split; [intros; apply pg_bn_check_pairing; assumption|].
  split; [intros; apply pg_bls_pairing; assumption|].
  split; [intros; apply pg_bls_check_pairing; assumption|].
  split; [intros; apply pg_xor_lanes; assumption|].
  split; [intros; apply pg_k_init; assumption|].
  split; [intros; apply pg_theta; assumption|].
  split; [intros; apply pg_xi; assumption|].
  split; [intros; apply pg_iota; assumption|].
  split; [intros; apply pg_permute; assumption|].
  split; [intros; apply pg_absorb; assumption|].
  split; [intros; apply pg_u256_step; assumption|].
  split; [intros; apply pg_decompose_u256_with; assumption|].
  split; [intros; apply pg_decompose_scalar_as_u256_be; assumption|].
  split; [intros; apply pg_compose_loop; assumption|].
  split; [intros; apply pg_compose_to_scalar_be; assumption|].
  split; [intros; apply pg_hash_with; assumption|].
  split; [intros; apply pg_hash; assumption|].
  split; intros; [apply pg_msm_native|apply pg_msm_general].
Qed.

Lemma C49_more_gadgets_are_quiet_main :
  forall (NM : NMod) (I : rinfo) (nonres : afq2 -> M afq2), (forall a, gadget (nonres a)) -> (forall a, quiet (nonres a)) ->
    (forall x, quiet (fq2_reduce I x))
 /\ (forall x y, quiet (fq2_assert_equal I x y))
 /\ (quiet (fq2_assign_zero I))
 /\ (quiet (fq2_assign_one I))
 /\ (forall c, quiet (fq2_assign_constant I c))
 /\ (forall a b, quiet (fq2_add I a b))
 /\ (forall a b, quiet (fq2_mul I a b))
 /\ (forall a b, quiet (fq2_sub I a b))
 /\ (forall a, quiet (fq2_double I a))
 /\ (forall a, quiet (fq2_square I a))
 /\ (forall a, quiet (fq2_neg I a))
 /\ (forall a, quiet (fq2_conjugate I a))
 /\ (forall x, quiet (fq2_unsafe_invert I x))
 /\ (forall x, quiet (fq6_reduce I x))
 /\ (forall x y, quiet (fq6_assert_equal I x y))
 /\ (quiet (fq6_assign_zero I))
 /\ (quiet (fq6_assign_one I))
 /\ (forall a b, quiet (fq6_add I a b))
 /\ (forall a b, quiet (fq6_mul I nonres a b))
 /\ (forall a b, quiet (fq6_sub I a b))
 /\ (forall a, quiet (fq6_double I a))
 /\ (forall a, quiet (fq6_square I nonres a))
 /\ (forall a, quiet (fq6_neg I a))
 /\ (forall a b1, quiet (fq6_mul_by_1 I nonres a b1))
 /\ (forall a b0 b1, quiet (fq6_mul_by_01 I nonres a b0 b1))
 /\ (forall x, quiet (fq6_unsafe_invert I nonres x))
 /\ (forall c, quiet (fq6_assign_constant I c))
 /\ (forall a, quiet (fq6_mul_by_nonresidue nonres a))
 /\ (forall x, quiet (fq12_reduce I x))
 /\ (forall x y, quiet (fq12_assert_eq I x y))
 /\ (quiet (fq12_assign_zero I))
 /\ (quiet (fq12_assign_one I))
 /\ (forall x, quiet (fq12_assert_one I x))
 /\ (forall a b, quiet (fq12_add I a b))
 /\ (forall a b, quiet (fq12_mul I nonres a b))
 /\ (forall a b, quiet (fq12_sub I a b))
 /\ (forall a, quiet (fq12_double I a))
 /\ (forall a, quiet (fq12_square I nonres a))
 /\ (forall a, quiet (fq12_neg I a))
 /\ (forall x, quiet (fq12_conjugate I x))
 /\ (forall x c0 c1 c4, quiet (fq12_mul_by_014 I nonres x c0 c1 c4))
 /\ (forall x c0 c3 c4, quiet (fq12_mul_by_034 I nonres x c0 c3 c4))
 /\ (forall a0 a1, quiet (fp4_square I nonres a0 a1))
 /\ (forall x, quiet (fq12_cyclotomic_square I nonres x))
 /\ (forall x, quiet (fq12_unsafe_invert I nonres x))
 /\ (forall c, quiet (fq12_assign_constant I c))
 /\ (forall pt, quiet (doubling_step I pt))
 /\ (forall pt pq, quiet (addition_step I pt pq))
 /\ (forall g, quiet (g2affine_to_g2 I g))
 /\ (forall g, quiet (g2_neg I g))
 /\ (forall a, quiet (bn_nonres I a))
 /\ (forall x power, quiet (bn_fq2_frobenius_map I x power))
 /\ (forall x power, quiet (bn_fq6_frobenius_map I x power))
 /\ (forall x power, quiet (bn_fq12_frobenius_map I x power))
 /\ (forall g2 neg_g2 r, quiet (bn_prepare_loop I g2 neg_g2 r))
 /\ (forall g2, quiet (bn_prepare_g2 I g2))
 /\ (forall f k p, quiet (bn_ell I f k p))
 /\ (forall terms, quiet (bn_multi_miller_loop I terms))
 /\ (forall f, quiet (bn_exp_by_x I f))
 /\ (forall f, quiet (bn_final_exponentiation I f))
 /\ (forall a, quiet (bls_nonres I a))
 /\ (forall x _power, quiet (bls_fq2_frobenius_map I x _power))
 /\ (forall x power, quiet (bls_fq6_frobenius_map I x power))
 /\ (forall x power, quiet (bls_fq12_frobenius_map I x power))
 /\ (forall f k p, quiet (bls_ell I f k p))
 /\ (forall f, quiet (bls_cycolotomic_exp I f))
 /\ (forall g2, quiet (bls_prepare_g2 I g2))
 /\ (forall terms, quiet (bls_multi_miller_loop I terms))
 /\ (forall f, quiet (bls_final_exponentiation I f))
 /\ (forall terms, quiet (bn_pairing I terms))
 /\ (forall terms, quiet (bn_check_pairing I terms))
 /\ (forall terms, quiet (bls_pairing I terms))
 /\ (forall terms, quiet (bls_check_pairing I terms))
 /\ (forall a b, quiet (xor_lanes a b))
 /\ (quiet (k_init))
 /\ (forall st, quiet (theta st))
 /\ (forall st, quiet (xi st))
 /\ (forall st round, quiet (iota st round))
 /\ (forall st, quiet (permute st))
 /\ (forall st input, quiet (absorb st input))
 /\ (forall s_bn st i, quiet (u256_step s_bn st i))
 /\ (forall s_bn s, quiet (decompose_u256_with s_bn s))
 /\ (forall s, quiet (decompose_scalar_as_u256_be s))
 /\ (forall acc s, quiet (compose_loop acc s))
 /\ (forall s, quiet (compose_to_scalar_be s))
 /\ (forall input, quiet (hash_with input))
 /\ (forall input, quiet (hash input)).
Proof.
  intros NM I nonres Hg Hn.
  assert (Hnc : forall a, nc (nonres a)) by (intros a c x c' W E; destruct (Hn a c x c' W E) as (? & ? & ?); auto).
  split; [intros; apply nc_q; [apply nc_fq2_reduce; assumption|apply gadget_appends, pg_fq2_reduce; assumption]|].
  split; [intros; apply nc_q; [apply nc_fq2_assert_equal; assumption|apply gadget_appends, pg_fq2_assert_equal; assumption]|].
  split; [intros; apply nc_q; [apply nc_fq2_assign_zero; assumption|apply gadget_appends, pg_fq2_assign_zero; assumption]|].
  split; [intros; apply nc_q; [apply nc_fq2_assign_one; assumption|apply gadget_appends, pg_fq2_assign_one; assumption]|].
  split; [intros; apply nc_q; [apply nc_fq2_assign_constant; assumption|apply gadget_appends, pg_fq2_assign_constant; assumption]|].
  split; [intros; apply nc_q; [apply nc_fq2_add; assumption|apply gadget_appends, pg_fq2_add; assumption]|].
  split; [intros; apply nc_q; [apply nc_fq2_mul; assumption|apply gadget_appends, pg_fq2_mul; assumption]|].
  split; [intros; apply nc_q; [apply nc_fq2_sub; assumption|apply gadget_appends, pg_fq2_sub; assumption]|].
  split; [intros; apply nc_q; [apply nc_fq2_double; assumption|apply gadget_appends, pg_fq2_double; assumption]|].
  split; [intros; apply nc_q; [apply nc_fq2_square; assumption|apply gadget_appends, pg_fq2_square; assumption]|].
  split; [intros; apply nc_q; [apply nc_fq2_neg; assumption|apply gadget_appends, pg_fq2_neg; assumption]|].
  split; [intros; apply nc_q; [apply nc_fq2_conjugate; assumption|apply gadget_appends, pg_fq2_conjugate; assumption]|].
  split; [intros; apply nc_q; [apply nc_fq2_unsafe_invert; assumption|apply gadget_appends, pg_fq2_unsafe_invert; assumption]|].
  split; [intros; apply nc_q; [apply nc_fq6_reduce; assumption|apply gadget_appends, pg_fq6_reduce; assumption]|].
  split; [intros; apply nc_q; [apply nc_fq6_assert_equal; assumption|apply gadget_appends, pg_fq6_assert_equal; assumption]|].
  split; [intros; apply nc_q; [apply nc_fq6_assign_zero; assumption|apply gadget_appends, pg_fq6_assign_zero; assumption]|].
  split; [intros; apply nc_q; [apply nc_fq6_assign_one; assumption|apply gadget_appends, pg_fq6_assign_one; assumption]|].
  split; [intros; apply nc_q; [apply nc_fq6_add; assumption|apply gadget_appends, pg_fq6_add; assumption]|].
  split; [intros; apply nc_q; [apply nc_fq6_mul; assumption|apply gadget_appends, pg_fq6_mul; assumption]|].
  split; [intros; apply nc_q; [apply nc_fq6_sub; assumption|apply gadget_appends, pg_fq6_sub; assumption]|].
  split; [intros; apply nc_q; [apply nc_fq6_double; assumption|apply gadget_appends, pg_fq6_double; assumption]|].
  split; [intros; apply nc_q; [apply nc_fq6_square; assumption|apply gadget_appends, pg_fq6_square; assumption]|].
  split; [intros; apply nc_q; [apply nc_fq6_neg; assumption|apply gadget_appends, pg_fq6_neg; assumption]|].
  split; [intros; apply nc_q; [apply nc_fq6_mul_by_1; assumption|apply gadget_appends, pg_fq6_mul_by_1; assumption]|].
  split; [intros; apply nc_q; [apply nc_fq6_mul_by_01; assumption|apply gadget_appends, pg_fq6_mul_by_01; assumption]|].
  split; [intros; apply nc_q; [apply nc_fq6_unsafe_invert; assumption|apply gadget_appends, pg_fq6_unsafe_invert; assumption]|].
  split; [intros; apply nc_q; [apply nc_fq6_assign_constant; assumption|apply gadget_appends, pg_fq6_assign_constant; assumption]|].
  split; [intros; apply nc_q; [apply nc_fq6_mul_by_nonresidue; assumption|apply gadget_appends, pg_fq6_mul_by_nonresidue; assumption]|].
  split; [intros; apply nc_q; [apply nc_fq12_reduce; assumption|apply gadget_appends, pg_fq12_reduce; assumption]|].
  split; [intros; apply nc_q; [apply nc_fq12_assert_eq; assumption|apply gadget_appends, pg_fq12_assert_eq; assumption]|].
  split; [intros; apply nc_q; [apply nc_fq12_assign_zero; assumption|apply gadget_appends, pg_fq12_assign_zero; assumption]|].
  split; [intros; apply nc_q; [apply nc_fq12_assign_one; assumption|apply gadget_appends, pg_fq12_assign_one; assumption]|].
  split; [intros; apply nc_q; [apply nc_fq12_assert_one; assumption|apply gadget_appends, pg_fq12_assert_one; assumption]|].
  split; [intros; apply nc_q; [apply nc_fq12_add; assumption|apply gadget_appends, pg_fq12_add; assumption]|].
  split; [intros; apply nc_q; [apply nc_fq12_mul; assumption|apply gadget_appends, pg_fq12_mul; assumption]|].
  split; [intros; apply nc_q; [apply nc_fq12_sub; assumption|apply gadget_appends, pg_fq12_sub; assumption]|].
  split; [intros; apply nc_q; [apply nc_fq12_double; assumption|apply gadget_appends, pg_fq12_double; assumption]|].
  split; [intros; apply nc_q; [apply nc_fq12_square; assumption|apply gadget_appends, pg_fq12_square; assumption]|].
  split; [intros; apply nc_q; [apply nc_fq12_neg; assumption|apply gadget_appends, pg_fq12_neg; assumption]|].
  split; [intros; apply nc_q; [apply nc_fq12_conjugate; assumption|apply gadget_appends, pg_fq12_conjugate; assumption]|].
  split; [intros; apply nc_q; [apply nc_fq12_mul_by_014; assumption|apply gadget_appends, pg_fq12_mul_by_014; assumption]|].
  split; [intros; apply nc_q; [apply nc_fq12_mul_by_034; assumption|apply gadget_appends, pg_fq12_mul_by_034; assumption]|].
  split; [intros; apply nc_q; [apply nc_fp4_square; assumption|apply gadget_appends, pg_fp4_square; assumption]|].
  split; [intros; apply nc_q; [apply nc_fq12_cyclotomic_square; assumption|apply gadget_appends, pg_fq12_cyclotomic_square; assumption]|].
  split; [intros; apply nc_q; [apply nc_fq12_unsafe_invert; assumption|apply gadget_appends, pg_fq12_unsafe_invert; assumption]|].
  split; [intros; apply nc_q; [apply nc_fq12_assign_constant; assumption|apply gadget_appends, pg_fq12_assign_constant; assumption]|].
  split; [intros; apply nc_q; [apply nc_doubling_step; assumption|apply gadget_appends, pg_doubling_step; assumption]|].
  split; [intros; apply nc_q; [apply nc_addition_step; assumption|apply gadget_appends, pg_addition_step; assumption]|].
  split; [intros; apply nc_q; [apply nc_g2affine_to_g2; assumption|apply gadget_appends, pg_g2affine_to_g2; assumption]|].
  split; [intros; apply nc_q; [apply nc_g2_neg; assumption|apply gadget_appends, pg_g2_neg; assumption]|].
  split; [intros; apply nc_q; [apply nc_bn_nonres; assumption|apply gadget_appends, pg_bn_nonres; assumption]|].
  split; [intros; apply nc_q; [apply nc_bn_fq2_frobenius_map; assumption|apply gadget_appends, pg_bn_fq2_frobenius_map; assumption]|].
  split; [intros; apply nc_q; [apply nc_bn_fq6_frobenius_map; assumption|apply gadget_appends, pg_bn_fq6_frobenius_map; assumption]|].
  split; [intros; apply nc_q; [apply nc_bn_fq12_frobenius_map; assumption|apply gadget_appends, pg_bn_fq12_frobenius_map; assumption]|].
  split; [intros; apply nc_q; [apply nc_bn_prepare_loop; assumption|apply gadget_appends, pg_bn_prepare_loop; assumption]|].
  split; [intros; apply nc_q; [apply nc_bn_prepare_g2; assumption|apply gadget_appends, pg_bn_prepare_g2; assumption]|].
  split; [intros; apply nc_q; [apply nc_bn_ell; assumption|apply gadget_appends, pg_bn_ell; assumption]|].
  split; [intros; apply nc_q; [apply nc_bn_multi_miller_loop; assumption|apply gadget_appends, pg_bn_multi_miller_loop; assumption]|].
  split; [intros; apply nc_q; [apply nc_bn_exp_by_x; assumption|apply gadget_appends, pg_bn_exp_by_x; assumption]|].
  split; [intros; apply nc_q; [apply nc_bn_final_exponentiation; assumption|apply gadget_appends, pg_bn_final_exponentiation; assumption]|].
  split; [intros; apply nc_q; [apply nc_bls_nonres; assumption|apply gadget_appends, pg_bls_nonres; assumption]|].
  split; [intros; apply nc_q; [apply nc_bls_fq2_frobenius_map; assumption|apply gadget_appends, pg_bls_fq2_frobenius_map; assumption]|].
  split; [intros; apply nc_q; [apply nc_bls_fq6_frobenius_map; assumption|apply gadget_appends, pg_bls_fq6_frobenius_map; assumption]|].
  split; [intros; apply nc_q; [apply nc_bls_fq12_frobenius_map; assumption|apply gadget_appends, pg_bls_fq12_frobenius_map; assumption]|].
  split; [intros; apply nc_q; [apply nc_bls_ell; assumption|apply gadget_appends, pg_bls_ell; assumption]|].
  split; [intros; apply nc_q; [apply nc_bls_cycolotomic_exp; assumption|apply gadget_appends, pg_bls_cycolotomic_exp; assumption]|].
  split; [intros; apply nc_q; [apply nc_bls_prepare_g2; assumption|apply gadget_appends, pg_bls_prepare_g2; assumption]|].
  split; [intros; apply nc_q; [apply nc_bls_multi_miller_loop; assumption|apply gadget_appends, pg_bls_multi_miller_loop; assumption]|].
  split; [intros; apply nc_q; [apply nc_bls_final_exponentiation; assumption|apply gadget_appends, pg_bls_final_exponentiation; assumption]|].
  split; [intros; apply nc_q; [apply nc_bn_pairing; assumption|apply gadget_appends, pg_bn_pairing; assumption]|].
  split; [intros; apply nc_q; [apply nc_bn_check_pairing; assumption|apply gadget_appends, pg_bn_check_pairing; assumption]|].
  split; [intros; apply nc_q; [apply nc_bls_pairing; assumption|apply gadget_appends, pg_bls_pairing; assumption]|].
  split; [intros; apply nc_q; [apply nc_bls_check_pairing; assumption|apply gadget_appends, pg_bls_check_pairing; assumption]|].
  split; [intros; apply nc_q; [apply nc_xor_lanes; assumption|apply gadget_appends, pg_xor_lanes; assumption]|].
  split; [intros; apply nc_q; [apply nc_k_init; assumption|apply gadget_appends, pg_k_init; assumption]|].
  split; [intros; apply nc_q; [apply nc_theta; assumption|apply gadget_appends, pg_theta; assumption]|].
  split; [intros; apply nc_q; [apply nc_xi; assumption|apply gadget_appends, pg_xi; assumption]|].
  split; [intros; apply nc_q; [apply nc_iota; assumption|apply gadget_appends, pg_iota; assumption]|].
  split; [intros; apply nc_q; [apply nc_permute; assumption|apply gadget_appends, pg_permute; assumption]|].
  split; [intros; apply nc_q; [apply nc_absorb; assumption|apply gadget_appends, pg_absorb; assumption]|].
  split; [intros; apply nc_q; [apply nc_u256_step; assumption|apply gadget_appends, pg_u256_step; assumption]|].
  split; [intros; apply nc_q; [apply nc_decompose_u256_with; assumption|apply gadget_appends, pg_decompose_u256_with; assumption]|].
  split; [intros; apply nc_q; [apply nc_decompose_scalar_as_u256_be; assumption|apply gadget_appends, pg_decompose_scalar_as_u256_be; assumption]|].
  split; [intros; apply nc_q; [apply nc_compose_loop; assumption|apply gadget_appends, pg_compose_loop; assumption]|].
  split; [intros; apply nc_q; [apply nc_compose_to_scalar_be; assumption|apply gadget_appends, pg_compose_to_scalar_be; assumption]|].
  split; [intros; apply nc_q; [apply nc_hash_with; assumption|apply gadget_appends, pg_hash_with; assumption]|].
  intros; apply nc_q; [apply nc_hash; assumption|apply gadget_appends, pg_hash; assumption].
Qed.

