(** The gadgets of the keccak, tower and pairing chips cache nothing. *)
From Verif Require Import Prelude FieldZ Circuit Context Spec Logic Prims BaseChip RangeInfo RangeChip IntegerChip EccChip ScalarChip Msm
  SpecSelect NoCache KeccakChip Moduli PairingConsts Fq12Chip PairingChip.
Section ncF.
Context {NM : NMod}.
Variable I : rinfo.
Variable nonres : afq2 -> M afq2.
Hypothesis Hn : forall a, nc (nonres a).
Hint Resolve Hn : nca.
Lemma nc_fq2_reduce x : nc (fq2_reduce I x). Proof. unfold fq2_reduce. nca. Qed.
Hint Resolve nc_fq2_reduce : nca.
Lemma nc_fq2_assert_equal x y : nc (fq2_assert_equal I x y). Proof. unfold fq2_assert_equal. nca. Qed.
Hint Resolve nc_fq2_assert_equal : nca.
Lemma nc_fq2_assign_zero  : nc (fq2_assign_zero I ). Proof. unfold fq2_assign_zero. nca. Qed.
Hint Resolve nc_fq2_assign_zero : nca.
Lemma nc_fq2_assign_one  : nc (fq2_assign_one I ). Proof. unfold fq2_assign_one. nca. Qed.
Hint Resolve nc_fq2_assign_one : nca.
Lemma nc_fq2_assign_constant c : nc (fq2_assign_constant I c). Proof. unfold fq2_assign_constant. nca. Qed.
Hint Resolve nc_fq2_assign_constant : nca.
Lemma nc_fq2_add a b : nc (fq2_add I a b). Proof. unfold fq2_add. nca. Qed.
Hint Resolve nc_fq2_add : nca.
Lemma nc_fq2_mul a b : nc (fq2_mul I a b). Proof. unfold fq2_mul. nca. Qed.
Hint Resolve nc_fq2_mul : nca.
Lemma nc_fq2_sub a b : nc (fq2_sub I a b). Proof. unfold fq2_sub. nca. Qed.
Hint Resolve nc_fq2_sub : nca.
Lemma nc_fq2_double a : nc (fq2_double I a). Proof. unfold fq2_double. nca. Qed.
Hint Resolve nc_fq2_double : nca.
Lemma nc_fq2_square a : nc (fq2_square I a). Proof. unfold fq2_square. nca. Qed.
Hint Resolve nc_fq2_square : nca.
Lemma nc_fq2_neg a : nc (fq2_neg I a). Proof. unfold fq2_neg. nca. Qed.
Hint Resolve nc_fq2_neg : nca.
Lemma nc_fq2_conjugate a : nc (fq2_conjugate I a). Proof. unfold fq2_conjugate. nca. Qed.
Hint Resolve nc_fq2_conjugate : nca.
Lemma nc_fq2_unsafe_invert x : nc (fq2_unsafe_invert I x). Proof. unfold fq2_unsafe_invert. nca. Qed.
Hint Resolve nc_fq2_unsafe_invert : nca.
Lemma nc_fq6_reduce x : nc (fq6_reduce I x). Proof. unfold fq6_reduce. nca. Qed.
Hint Resolve nc_fq6_reduce : nca.
Lemma nc_fq6_assert_equal x y : nc (fq6_assert_equal I x y). Proof. unfold fq6_assert_equal. nca. Qed.
Hint Resolve nc_fq6_assert_equal : nca.
Lemma nc_fq6_assign_zero  : nc (fq6_assign_zero I ). Proof. unfold fq6_assign_zero. nca. Qed.
Hint Resolve nc_fq6_assign_zero : nca.
Lemma nc_fq6_assign_one  : nc (fq6_assign_one I ). Proof. unfold fq6_assign_one. nca. Qed.
Hint Resolve nc_fq6_assign_one : nca.
Lemma nc_fq6_add a b : nc (fq6_add I a b). Proof. unfold fq6_add. nca. Qed.
Hint Resolve nc_fq6_add : nca.
Lemma nc_fq6_mul a b : nc (fq6_mul I nonres a b). Proof. unfold fq6_mul. nca. Qed.
Hint Resolve nc_fq6_mul : nca.
Lemma nc_fq6_sub a b : nc (fq6_sub I a b). Proof. unfold fq6_sub. nca. Qed.
Hint Resolve nc_fq6_sub : nca.
Lemma nc_fq6_double a : nc (fq6_double I a). Proof. unfold fq6_double. nca. Qed.
Hint Resolve nc_fq6_double : nca.
Lemma nc_fq6_square a : nc (fq6_square I nonres a). Proof. unfold fq6_square. nca. Qed.
Hint Resolve nc_fq6_square : nca.
Lemma nc_fq6_neg a : nc (fq6_neg I a). Proof. unfold fq6_neg. nca. Qed.
Hint Resolve nc_fq6_neg : nca.
Lemma nc_fq6_mul_by_1 a b1 : nc (fq6_mul_by_1 I nonres a b1). Proof. unfold fq6_mul_by_1. nca. Qed.
Hint Resolve nc_fq6_mul_by_1 : nca.
Lemma nc_fq6_mul_by_01 a b0 b1 : nc (fq6_mul_by_01 I nonres a b0 b1). Proof. unfold fq6_mul_by_01. nca. Qed.
Hint Resolve nc_fq6_mul_by_01 : nca.
Lemma nc_fq6_unsafe_invert x : nc (fq6_unsafe_invert I nonres x). Proof. unfold fq6_unsafe_invert. nca. Qed.
Hint Resolve nc_fq6_unsafe_invert : nca.
Lemma nc_fq6_assign_constant c : nc (fq6_assign_constant I c). Proof. unfold fq6_assign_constant. nca. Qed.
Hint Resolve nc_fq6_assign_constant : nca.
Lemma nc_fq6_mul_by_nonresidue a : nc (fq6_mul_by_nonresidue nonres a). Proof. unfold fq6_mul_by_nonresidue. nca. Qed.
Hint Resolve nc_fq6_mul_by_nonresidue : nca.
Lemma nc_fq12_reduce x : nc (fq12_reduce I x). Proof. unfold fq12_reduce. nca. Qed.
Hint Resolve nc_fq12_reduce : nca.
Lemma nc_fq12_assert_eq x y : nc (fq12_assert_eq I x y). Proof. unfold fq12_assert_eq. nca. Qed.
Hint Resolve nc_fq12_assert_eq : nca.
Lemma nc_fq12_assign_zero  : nc (fq12_assign_zero I ). Proof. unfold fq12_assign_zero. nca. Qed.
Hint Resolve nc_fq12_assign_zero : nca.
Lemma nc_fq12_assign_one  : nc (fq12_assign_one I ). Proof. unfold fq12_assign_one. nca. Qed.
Hint Resolve nc_fq12_assign_one : nca.
Lemma nc_fq12_assert_one x : nc (fq12_assert_one I x). Proof. unfold fq12_assert_one. nca. Qed.
Hint Resolve nc_fq12_assert_one : nca.
Lemma nc_fq12_add a b : nc (fq12_add I a b). Proof. unfold fq12_add. nca. Qed.
Hint Resolve nc_fq12_add : nca.
Lemma nc_fq12_mul a b : nc (fq12_mul I nonres a b). Proof. unfold fq12_mul. nca. Qed.
Hint Resolve nc_fq12_mul : nca.
Lemma nc_fq12_sub a b : nc (fq12_sub I a b). Proof. unfold fq12_sub. nca. Qed.
Hint Resolve nc_fq12_sub : nca.
Lemma nc_fq12_double a : nc (fq12_double I a). Proof. unfold fq12_double. nca. Qed.
Hint Resolve nc_fq12_double : nca.
Lemma nc_fq12_square a : nc (fq12_square I nonres a). Proof. unfold fq12_square. nca. Qed.
Hint Resolve nc_fq12_square : nca.
Lemma nc_fq12_neg a : nc (fq12_neg I a). Proof. unfold fq12_neg. nca. Qed.
Hint Resolve nc_fq12_neg : nca.
Lemma nc_fq12_conjugate x : nc (fq12_conjugate I x). Proof. unfold fq12_conjugate. nca. Qed.
Hint Resolve nc_fq12_conjugate : nca.
Lemma nc_fq12_mul_by_014 x c0 c1 c4 : nc (fq12_mul_by_014 I nonres x c0 c1 c4). Proof. unfold fq12_mul_by_014. nca. Qed.
Hint Resolve nc_fq12_mul_by_014 : nca.
Lemma nc_fq12_mul_by_034 x c0 c3 c4 : nc (fq12_mul_by_034 I nonres x c0 c3 c4). Proof. unfold fq12_mul_by_034. nca. Qed.
Hint Resolve nc_fq12_mul_by_034 : nca.
Lemma nc_fp4_square a0 a1 : nc (fp4_square I nonres a0 a1). Proof. unfold fp4_square. nca. Qed.
Hint Resolve nc_fp4_square : nca.
Lemma nc_fq12_cyclotomic_square x : nc (fq12_cyclotomic_square I nonres x). Proof. unfold fq12_cyclotomic_square. nca. Qed.
Hint Resolve nc_fq12_cyclotomic_square : nca.
Lemma nc_fq12_unsafe_invert x : nc (fq12_unsafe_invert I nonres x). Proof. unfold fq12_unsafe_invert. nca. Qed.
Hint Resolve nc_fq12_unsafe_invert : nca.
Lemma nc_fq12_assign_constant c : nc (fq12_assign_constant I c). Proof. unfold fq12_assign_constant. nca. Qed.
Hint Resolve nc_fq12_assign_constant : nca.
End ncF.
#[export] Hint Resolve nc_fq2_reduce nc_fq2_assert_equal nc_fq2_assign_zero nc_fq2_assign_one nc_fq2_assign_constant nc_fq2_add nc_fq2_mul nc_fq2_sub nc_fq2_double nc_fq2_square nc_fq2_neg nc_fq2_conjugate nc_fq2_unsafe_invert nc_fq6_reduce nc_fq6_assert_equal nc_fq6_assign_zero nc_fq6_assign_one nc_fq6_add nc_fq6_sub nc_fq6_double nc_fq6_neg nc_fq6_assign_constant nc_fq12_reduce nc_fq12_assert_eq nc_fq12_assign_zero nc_fq12_assign_one nc_fq12_assert_one nc_fq12_add nc_fq12_sub nc_fq12_double nc_fq12_neg nc_fq12_conjugate nc_fq12_assign_constant : nca.
Section ncP.
Context {NM : NMod}.
Variable I : rinfo.
Lemma nc_doubling_step pt : nc (doubling_step I pt). Proof. unfold doubling_step. nca. Qed.
Hint Resolve nc_doubling_step : nca.
Lemma nc_addition_step pt pq : nc (addition_step I pt pq). Proof. unfold addition_step. nca. Qed.
Hint Resolve nc_addition_step : nca.
Lemma nc_g2affine_to_g2 g : nc (g2affine_to_g2 I g). Proof. unfold g2affine_to_g2. nca. Qed.
Hint Resolve nc_g2affine_to_g2 : nca.
Lemma nc_g2_neg g : nc (g2_neg I g). Proof. unfold g2_neg. nca. Qed.
Hint Resolve nc_g2_neg : nca.
Lemma nc_ell_all ell st : (forall f k q, nc (ell f k q)) -> nc (ell_all ell st). Proof. intros He. unfold ell_all. nca. Qed.
Lemma nc_bn_nonres a : nc (bn_nonres I a). Proof. unfold bn_nonres. nca. Qed.
Hint Resolve nc_bn_nonres : nca.
Lemma nc_bn_fq6_mul a b : nc (fq6_mul I (bn_nonres I) a b). Proof. apply nc_fq6_mul. nca. Qed.
Hint Resolve nc_bn_fq6_mul : nca.
Lemma nc_bn_fq6_square a : nc (fq6_square I (bn_nonres I) a). Proof. apply nc_fq6_square. nca. Qed.
Hint Resolve nc_bn_fq6_square : nca.
Lemma nc_bn_fq6_mul_by_1 a b1 : nc (fq6_mul_by_1 I (bn_nonres I) a b1). Proof. apply nc_fq6_mul_by_1. nca. Qed.
Hint Resolve nc_bn_fq6_mul_by_1 : nca.
Lemma nc_bn_fq6_mul_by_01 a b0 b1 : nc (fq6_mul_by_01 I (bn_nonres I) a b0 b1). Proof. apply nc_fq6_mul_by_01. nca. Qed.
Hint Resolve nc_bn_fq6_mul_by_01 : nca.
Lemma nc_bn_fq6_unsafe_invert x : nc (fq6_unsafe_invert I (bn_nonres I) x). Proof. apply nc_fq6_unsafe_invert. nca. Qed.
Hint Resolve nc_bn_fq6_unsafe_invert : nca.
Lemma nc_bn_fq6_mul_by_nonresidue a : nc (fq6_mul_by_nonresidue (bn_nonres I) a). Proof. apply nc_fq6_mul_by_nonresidue. nca. Qed.
Hint Resolve nc_bn_fq6_mul_by_nonresidue : nca.
Lemma nc_bn_fq12_mul a b : nc (fq12_mul I (bn_nonres I) a b). Proof. apply nc_fq12_mul. nca. Qed.
Hint Resolve nc_bn_fq12_mul : nca.
Lemma nc_bn_fq12_square a : nc (fq12_square I (bn_nonres I) a). Proof. apply nc_fq12_square. nca. Qed.
Hint Resolve nc_bn_fq12_square : nca.
Lemma nc_bn_fq12_mul_by_014 x c0 c1 c4 : nc (fq12_mul_by_014 I (bn_nonres I) x c0 c1 c4). Proof. apply nc_fq12_mul_by_014. nca. Qed.
Hint Resolve nc_bn_fq12_mul_by_014 : nca.
Lemma nc_bn_fq12_mul_by_034 x c0 c3 c4 : nc (fq12_mul_by_034 I (bn_nonres I) x c0 c3 c4). Proof. apply nc_fq12_mul_by_034. nca. Qed.
Hint Resolve nc_bn_fq12_mul_by_034 : nca.
Lemma nc_bn_fp4_square a0 a1 : nc (fp4_square I (bn_nonres I) a0 a1). Proof. apply nc_fp4_square. nca. Qed.
Hint Resolve nc_bn_fp4_square : nca.
Lemma nc_bn_fq12_cyclotomic_square x : nc (fq12_cyclotomic_square I (bn_nonres I) x). Proof. apply nc_fq12_cyclotomic_square. nca. Qed.
Hint Resolve nc_bn_fq12_cyclotomic_square : nca.
Lemma nc_bn_fq12_unsafe_invert x : nc (fq12_unsafe_invert I (bn_nonres I) x). Proof. apply nc_fq12_unsafe_invert. nca. Qed.
Hint Resolve nc_bn_fq12_unsafe_invert : nca.
Lemma nc_bn_fq2_frobenius_map x power : nc (bn_fq2_frobenius_map I x power). Proof. unfold bn_fq2_frobenius_map. nca. Qed.
Hint Resolve nc_bn_fq2_frobenius_map : nca.
Lemma nc_bn_fq6_frobenius_map x power : nc (bn_fq6_frobenius_map I x power). Proof. unfold bn_fq6_frobenius_map. nca. Qed.
Hint Resolve nc_bn_fq6_frobenius_map : nca.
Lemma nc_bn_fq12_frobenius_map x power : nc (bn_fq12_frobenius_map I x power). Proof. unfold bn_fq12_frobenius_map. nca. Qed.
Hint Resolve nc_bn_fq12_frobenius_map : nca.
Lemma nc_bn_prepare_loop g2 neg_g2 r : nc (bn_prepare_loop I g2 neg_g2 r). Proof. unfold bn_prepare_loop. nca. Qed.
Hint Resolve nc_bn_prepare_loop : nca.
Lemma nc_bn_prepare_g2 g2 : nc (bn_prepare_g2 I g2). Proof. unfold bn_prepare_g2. nca. Qed.
Hint Resolve nc_bn_prepare_g2 : nca.
Lemma nc_bn_ell f k p : nc (bn_ell I f k p). Proof. unfold bn_ell. nca. Qed.
Hint Resolve nc_bn_ell : nca.
Lemma nc_bn_multi_miller_loop terms : nc (bn_multi_miller_loop I terms). Proof. assert (HE : forall st, nc (ell_all (bn_ell I) st)) by (intros; apply nc_ell_all; nca). unfold bn_multi_miller_loop. nca. Qed.
Hint Resolve nc_bn_multi_miller_loop : nca.
Lemma nc_bn_exp_by_x f : nc (bn_exp_by_x I f). Proof. unfold bn_exp_by_x. nca. Qed.
Hint Resolve nc_bn_exp_by_x : nca.
Lemma nc_bn_final_exponentiation f : nc (bn_final_exponentiation I f). Proof. unfold bn_final_exponentiation. nca. Qed.
Hint Resolve nc_bn_final_exponentiation : nca.
Lemma nc_bls_nonres a : nc (bls_nonres I a). Proof. unfold bls_nonres. nca. Qed.
Hint Resolve nc_bls_nonres : nca.
Lemma nc_bls_fq6_mul a b : nc (fq6_mul I (bls_nonres I) a b). Proof. apply nc_fq6_mul. nca. Qed.
Hint Resolve nc_bls_fq6_mul : nca.
Lemma nc_bls_fq6_square a : nc (fq6_square I (bls_nonres I) a). Proof. apply nc_fq6_square. nca. Qed.
Hint Resolve nc_bls_fq6_square : nca.
Lemma nc_bls_fq6_mul_by_1 a b1 : nc (fq6_mul_by_1 I (bls_nonres I) a b1). Proof. apply nc_fq6_mul_by_1. nca. Qed.
Hint Resolve nc_bls_fq6_mul_by_1 : nca.
Lemma nc_bls_fq6_mul_by_01 a b0 b1 : nc (fq6_mul_by_01 I (bls_nonres I) a b0 b1). Proof. apply nc_fq6_mul_by_01. nca. Qed.
Hint Resolve nc_bls_fq6_mul_by_01 : nca.
Lemma nc_bls_fq6_unsafe_invert x : nc (fq6_unsafe_invert I (bls_nonres I) x). Proof. apply nc_fq6_unsafe_invert. nca. Qed.
Hint Resolve nc_bls_fq6_unsafe_invert : nca.
Lemma nc_bls_fq6_mul_by_nonresidue a : nc (fq6_mul_by_nonresidue (bls_nonres I) a). Proof. apply nc_fq6_mul_by_nonresidue. nca. Qed.
Hint Resolve nc_bls_fq6_mul_by_nonresidue : nca.
Lemma nc_bls_fq12_mul a b : nc (fq12_mul I (bls_nonres I) a b). Proof. apply nc_fq12_mul. nca. Qed.
Hint Resolve nc_bls_fq12_mul : nca.
Lemma nc_bls_fq12_square a : nc (fq12_square I (bls_nonres I) a). Proof. apply nc_fq12_square. nca. Qed.
Hint Resolve nc_bls_fq12_square : nca.
Lemma nc_bls_fq12_mul_by_014 x c0 c1 c4 : nc (fq12_mul_by_014 I (bls_nonres I) x c0 c1 c4). Proof. apply nc_fq12_mul_by_014. nca. Qed.
Hint Resolve nc_bls_fq12_mul_by_014 : nca.
Lemma nc_bls_fq12_mul_by_034 x c0 c3 c4 : nc (fq12_mul_by_034 I (bls_nonres I) x c0 c3 c4). Proof. apply nc_fq12_mul_by_034. nca. Qed.
Hint Resolve nc_bls_fq12_mul_by_034 : nca.
Lemma nc_bls_fp4_square a0 a1 : nc (fp4_square I (bls_nonres I) a0 a1). Proof. apply nc_fp4_square. nca. Qed.
Hint Resolve nc_bls_fp4_square : nca.
Lemma nc_bls_fq12_cyclotomic_square x : nc (fq12_cyclotomic_square I (bls_nonres I) x). Proof. apply nc_fq12_cyclotomic_square. nca. Qed.
Hint Resolve nc_bls_fq12_cyclotomic_square : nca.
Lemma nc_bls_fq12_unsafe_invert x : nc (fq12_unsafe_invert I (bls_nonres I) x). Proof. apply nc_fq12_unsafe_invert. nca. Qed.
Hint Resolve nc_bls_fq12_unsafe_invert : nca.
Lemma nc_bls_fq2_frobenius_map x _power : nc (bls_fq2_frobenius_map I x _power). Proof. unfold bls_fq2_frobenius_map. nca. Qed.
Hint Resolve nc_bls_fq2_frobenius_map : nca.
Lemma nc_bls_fq6_frobenius_map x power : nc (bls_fq6_frobenius_map I x power). Proof. unfold bls_fq6_frobenius_map. nca. Qed.
Hint Resolve nc_bls_fq6_frobenius_map : nca.
Lemma nc_bls_fq12_frobenius_map x power : nc (bls_fq12_frobenius_map I x power). Proof. unfold bls_fq12_frobenius_map. nca. Qed.
Hint Resolve nc_bls_fq12_frobenius_map : nca.
Lemma nc_bls_ell f k p : nc (bls_ell I f k p). Proof. unfold bls_ell. nca. Qed.
Hint Resolve nc_bls_ell : nca.
Lemma nc_bls_cycolotomic_exp f : nc (bls_cycolotomic_exp I f). Proof. unfold bls_cycolotomic_exp. nca. Qed.
Hint Resolve nc_bls_cycolotomic_exp : nca.
Lemma nc_bls_prepare_g2 g2 : nc (bls_prepare_g2 I g2). Proof. unfold bls_prepare_g2. nca. Qed.
Hint Resolve nc_bls_prepare_g2 : nca.
Lemma nc_bls_multi_miller_loop terms : nc (bls_multi_miller_loop I terms). Proof. assert (HE : forall st, nc (ell_all (bls_ell I) st)) by (intros; apply nc_ell_all; nca). unfold bls_multi_miller_loop. nca. Qed.
Hint Resolve nc_bls_multi_miller_loop : nca.
Lemma nc_bls_final_exponentiation f : nc (bls_final_exponentiation I f). Proof. unfold bls_final_exponentiation. nca. Qed.
Hint Resolve nc_bls_final_exponentiation : nca.
Lemma nc_bn_pairing terms : nc (bn_pairing I terms). Proof. unfold bn_pairing, pairing. nca. Qed.
Hint Resolve nc_bn_pairing : nca.
Lemma nc_bn_check_pairing terms : nc (bn_check_pairing I terms). Proof. unfold bn_check_pairing. nca. Qed.
Hint Resolve nc_bn_check_pairing : nca.
Lemma nc_bls_pairing terms : nc (bls_pairing I terms). Proof. unfold bls_pairing, pairing. nca. Qed.
Hint Resolve nc_bls_pairing : nca.
Lemma nc_bls_check_pairing terms : nc (bls_check_pairing I terms). Proof. unfold bls_check_pairing. nca. Qed.
Hint Resolve nc_bls_check_pairing : nca.
End ncP.
#[export] Hint Resolve nc_doubling_step nc_addition_step nc_g2affine_to_g2 nc_g2_neg nc_bn_nonres nc_bn_fq6_mul nc_bn_fq6_square nc_bn_fq6_mul_by_1 nc_bn_fq6_mul_by_01 nc_bn_fq6_unsafe_invert nc_bn_fq6_mul_by_nonresidue nc_bn_fq12_mul nc_bn_fq12_square nc_bn_fq12_mul_by_014 nc_bn_fq12_mul_by_034 nc_bn_fp4_square nc_bn_fq12_cyclotomic_square nc_bn_fq12_unsafe_invert nc_bn_fq2_frobenius_map nc_bn_fq6_frobenius_map nc_bn_fq12_frobenius_map nc_bn_prepare_loop nc_bn_prepare_g2 nc_bn_ell nc_bn_multi_miller_loop nc_bn_exp_by_x nc_bn_final_exponentiation nc_bls_nonres nc_bls_fq6_mul nc_bls_fq6_square nc_bls_fq6_mul_by_1 nc_bls_fq6_mul_by_01 nc_bls_fq6_unsafe_invert nc_bls_fq6_mul_by_nonresidue nc_bls_fq12_mul nc_bls_fq12_square nc_bls_fq12_mul_by_014 nc_bls_fq12_mul_by_034 nc_bls_fp4_square nc_bls_fq12_cyclotomic_square nc_bls_fq12_unsafe_invert nc_bls_fq2_frobenius_map nc_bls_fq6_frobenius_map nc_bls_fq12_frobenius_map nc_bls_ell nc_bls_cycolotomic_exp nc_bls_prepare_g2 nc_bls_multi_miller_loop nc_bls_final_exponentiation nc_bn_pairing nc_bn_check_pairing nc_bls_pairing nc_bls_check_pairing : nca.
Section ncK.
Context {NM : NMod}.
Lemma nc_xor_lanes a b : nc (xor_lanes a b). Proof. unfold xor_lanes. nca. Qed.
Hint Resolve nc_xor_lanes : nca.
Lemma nc_k_init  : nc (k_init ). Proof. unfold k_init. nca. Qed.
Hint Resolve nc_k_init : nca.
Lemma nc_theta st : nc (theta st). Proof. unfold theta. nca. Qed.
Hint Resolve nc_theta : nca.
Lemma nc_xi st : nc (xi st). Proof. unfold xi. nca. Qed.
Hint Resolve nc_xi : nca.
Lemma nc_iota st round : nc (iota st round). Proof. unfold iota. nca. Qed.
Hint Resolve nc_iota : nca.
Lemma nc_permute st : nc (permute st). Proof. unfold permute. nca. Qed.
Hint Resolve nc_permute : nca.
Lemma nc_absorb st input : nc (absorb st input). Proof. unfold absorb. nca. Qed.
Hint Resolve nc_absorb : nca.
Lemma nc_u256_step s_bn st i : nc (u256_step s_bn st i). Proof. unfold u256_step. nca. Qed.
Hint Resolve nc_u256_step : nca.
Lemma nc_decompose_u256_with s_bn s : nc (decompose_u256_with s_bn s). Proof. unfold decompose_u256_with. nca. Qed.
Hint Resolve nc_decompose_u256_with : nca.
Lemma nc_decompose_scalar_as_u256_be s : nc (decompose_scalar_as_u256_be s). Proof. unfold decompose_scalar_as_u256_be. nca. Qed.
Hint Resolve nc_decompose_scalar_as_u256_be : nca.
Lemma nc_compose_loop_n k : forall s acc, (length s <= k)%nat -> nc (compose_loop acc s).
Proof. induction k as [|k IH]; intros [|b1 [|b0 s]] acc L; cbn [compose_loop]; cbn [length] in L; try lia; try solve [nca]. apply nc_bind; [nca|intros; apply IH; lia]. Qed.
Lemma nc_compose_loop acc s : nc (compose_loop acc s). Proof. apply (nc_compose_loop_n (length s)). reflexivity. Qed.
Hint Resolve nc_compose_loop : nca.
Lemma nc_compose_to_scalar_be s : nc (compose_to_scalar_be s). Proof. unfold compose_to_scalar_be. nca. Qed.
Hint Resolve nc_compose_to_scalar_be : nca.
Lemma nc_hash_with input : nc (hash_with input). Proof. unfold hash_with. nca. Qed.
Hint Resolve nc_hash_with : nca.
Lemma nc_hash input : nc (hash input). Proof. unfold hash. nca. Qed.
Hint Resolve nc_hash : nca.
End ncK.
#[export] Hint Resolve nc_xor_lanes nc_k_init nc_theta nc_xi nc_iota nc_permute nc_absorb nc_u256_step nc_decompose_u256_with nc_decompose_scalar_as_u256_be nc_compose_loop nc_compose_to_scalar_be nc_hash_with nc_hash : nca.
