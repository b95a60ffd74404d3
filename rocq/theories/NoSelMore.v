(** The gadgets of the keccak, tower and pairing chips record nothing for the select chip. *)
From Verif Require Import Prelude FieldZ Circuit Context Spec Logic Prims BaseChip RangeInfo RangeChip IntegerChip EccChip ScalarChip Msm
  SpecNoSelect NoSelGadgets KeccakChip Moduli PairingConsts Fq12Chip PairingChip.
Section nsF.
Context {NM : NMod}.
Variable I : rinfo.
Variable nonres : afq2 -> M afq2.
Hypothesis Hn : forall a, ns (nonres a).
Hint Resolve Hn : nsa.
Lemma ns_fq2_reduce x : ns (fq2_reduce I x). Proof. unfold fq2_reduce. nsa. Qed.
Hint Resolve ns_fq2_reduce : nsa.
Lemma ns_fq2_assert_equal x y : ns (fq2_assert_equal I x y). Proof. unfold fq2_assert_equal. nsa. Qed.
Hint Resolve ns_fq2_assert_equal : nsa.
Lemma ns_fq2_assign_zero  : ns (fq2_assign_zero I ). Proof. unfold fq2_assign_zero. nsa. Qed.
Hint Resolve ns_fq2_assign_zero : nsa.
Lemma ns_fq2_assign_one  : ns (fq2_assign_one I ). Proof. unfold fq2_assign_one. nsa. Qed.
Hint Resolve ns_fq2_assign_one : nsa.
Lemma ns_fq2_assign_constant c : ns (fq2_assign_constant I c). Proof. unfold fq2_assign_constant. nsa. Qed.
Hint Resolve ns_fq2_assign_constant : nsa.
Lemma ns_fq2_add a b : ns (fq2_add I a b). Proof. unfold fq2_add. nsa. Qed.
Hint Resolve ns_fq2_add : nsa.
Lemma ns_fq2_mul a b : ns (fq2_mul I a b). Proof. unfold fq2_mul. nsa. Qed.
Hint Resolve ns_fq2_mul : nsa.
Lemma ns_fq2_sub a b : ns (fq2_sub I a b). Proof. unfold fq2_sub. nsa. Qed.
Hint Resolve ns_fq2_sub : nsa.
Lemma ns_fq2_double a : ns (fq2_double I a). Proof. unfold fq2_double. nsa. Qed.
Hint Resolve ns_fq2_double : nsa.
Lemma ns_fq2_square a : ns (fq2_square I a). Proof. unfold fq2_square. nsa. Qed.
Hint Resolve ns_fq2_square : nsa.
Lemma ns_fq2_neg a : ns (fq2_neg I a). Proof. unfold fq2_neg. nsa. Qed.
Hint Resolve ns_fq2_neg : nsa.
Lemma ns_fq2_conjugate a : ns (fq2_conjugate I a). Proof. unfold fq2_conjugate. nsa. Qed.
Hint Resolve ns_fq2_conjugate : nsa.
Lemma ns_fq2_unsafe_invert x : ns (fq2_unsafe_invert I x). Proof. unfold fq2_unsafe_invert. nsa. Qed.
Hint Resolve ns_fq2_unsafe_invert : nsa.
Lemma ns_fq6_reduce x : ns (fq6_reduce I x). Proof. unfold fq6_reduce. nsa. Qed.
Hint Resolve ns_fq6_reduce : nsa.
Lemma ns_fq6_assert_equal x y : ns (fq6_assert_equal I x y). Proof. unfold fq6_assert_equal. nsa. Qed.
Hint Resolve ns_fq6_assert_equal : nsa.
Lemma ns_fq6_assign_zero  : ns (fq6_assign_zero I ). Proof. unfold fq6_assign_zero. nsa. Qed.
Hint Resolve ns_fq6_assign_zero : nsa.
Lemma ns_fq6_assign_one  : ns (fq6_assign_one I ). Proof. unfold fq6_assign_one. nsa. Qed.
Hint Resolve ns_fq6_assign_one : nsa.
Lemma ns_fq6_add a b : ns (fq6_add I a b). Proof. unfold fq6_add. nsa. Qed.
Hint Resolve ns_fq6_add : nsa.
Lemma ns_fq6_mul a b : ns (fq6_mul I nonres a b). Proof. unfold fq6_mul. nsa. Qed.
Hint Resolve ns_fq6_mul : nsa.
Lemma ns_fq6_sub a b : ns (fq6_sub I a b). Proof. unfold fq6_sub. nsa. Qed.
Hint Resolve ns_fq6_sub : nsa.
Lemma ns_fq6_double a : ns (fq6_double I a). Proof. unfold fq6_double. nsa. Qed.
Hint Resolve ns_fq6_double : nsa.
Lemma ns_fq6_square a : ns (fq6_square I nonres a). Proof. unfold fq6_square. nsa. Qed.
Hint Resolve ns_fq6_square : nsa.
Lemma ns_fq6_neg a : ns (fq6_neg I a). Proof. unfold fq6_neg. nsa. Qed.
Hint Resolve ns_fq6_neg : nsa.
Lemma ns_fq6_mul_by_1 a b1 : ns (fq6_mul_by_1 I nonres a b1). Proof. unfold fq6_mul_by_1. nsa. Qed.
Hint Resolve ns_fq6_mul_by_1 : nsa.
Lemma ns_fq6_mul_by_01 a b0 b1 : ns (fq6_mul_by_01 I nonres a b0 b1). Proof. unfold fq6_mul_by_01. nsa. Qed.
Hint Resolve ns_fq6_mul_by_01 : nsa.
Lemma ns_fq6_unsafe_invert x : ns (fq6_unsafe_invert I nonres x). Proof. unfold fq6_unsafe_invert. nsa. Qed.
Hint Resolve ns_fq6_unsafe_invert : nsa.
Lemma ns_fq6_assign_constant c : ns (fq6_assign_constant I c). Proof. unfold fq6_assign_constant. nsa. Qed.
Hint Resolve ns_fq6_assign_constant : nsa.
Lemma ns_fq6_mul_by_nonresidue a : ns (fq6_mul_by_nonresidue nonres a). Proof. unfold fq6_mul_by_nonresidue. nsa. Qed.
Hint Resolve ns_fq6_mul_by_nonresidue : nsa.
Lemma ns_fq12_reduce x : ns (fq12_reduce I x). Proof. unfold fq12_reduce. nsa. Qed.
Hint Resolve ns_fq12_reduce : nsa.
Lemma ns_fq12_assert_eq x y : ns (fq12_assert_eq I x y). Proof. unfold fq12_assert_eq. nsa. Qed.
Hint Resolve ns_fq12_assert_eq : nsa.
Lemma ns_fq12_assign_zero  : ns (fq12_assign_zero I ). Proof. unfold fq12_assign_zero. nsa. Qed.
Hint Resolve ns_fq12_assign_zero : nsa.
Lemma ns_fq12_assign_one  : ns (fq12_assign_one I ). Proof. unfold fq12_assign_one. nsa. Qed.
Hint Resolve ns_fq12_assign_one : nsa.
Lemma ns_fq12_assert_one x : ns (fq12_assert_one I x). Proof. unfold fq12_assert_one. nsa. Qed.
Hint Resolve ns_fq12_assert_one : nsa.
Lemma ns_fq12_add a b : ns (fq12_add I a b). Proof. unfold fq12_add. nsa. Qed.
Hint Resolve ns_fq12_add : nsa.
Lemma ns_fq12_mul a b : ns (fq12_mul I nonres a b). Proof. unfold fq12_mul. nsa. Qed.
Hint Resolve ns_fq12_mul : nsa.
Lemma ns_fq12_sub a b : ns (fq12_sub I a b). Proof. unfold fq12_sub. nsa. Qed.
Hint Resolve ns_fq12_sub : nsa.
Lemma ns_fq12_double a : ns (fq12_double I a). Proof. unfold fq12_double. nsa. Qed.
Hint Resolve ns_fq12_double : nsa.
Lemma ns_fq12_square a : ns (fq12_square I nonres a). Proof. unfold fq12_square. nsa. Qed.
Hint Resolve ns_fq12_square : nsa.
Lemma ns_fq12_neg a : ns (fq12_neg I a). Proof. unfold fq12_neg. nsa. Qed.
Hint Resolve ns_fq12_neg : nsa.
Lemma ns_fq12_conjugate x : ns (fq12_conjugate I x). Proof. unfold fq12_conjugate. nsa. Qed.
Hint Resolve ns_fq12_conjugate : nsa.
Lemma ns_fq12_mul_by_014 x c0 c1 c4 : ns (fq12_mul_by_014 I nonres x c0 c1 c4). Proof. unfold fq12_mul_by_014. nsa. Qed.
Hint Resolve ns_fq12_mul_by_014 : nsa.
Lemma ns_fq12_mul_by_034 x c0 c3 c4 : ns (fq12_mul_by_034 I nonres x c0 c3 c4). Proof. unfold fq12_mul_by_034. nsa. Qed.
Hint Resolve ns_fq12_mul_by_034 : nsa.
Lemma ns_fp4_square a0 a1 : ns (fp4_square I nonres a0 a1). Proof. unfold fp4_square. nsa. Qed.
Hint Resolve ns_fp4_square : nsa.
Lemma ns_fq12_cyclotomic_square x : ns (fq12_cyclotomic_square I nonres x). Proof. unfold fq12_cyclotomic_square. nsa. Qed.
Hint Resolve ns_fq12_cyclotomic_square : nsa.
Lemma ns_fq12_unsafe_invert x : ns (fq12_unsafe_invert I nonres x). Proof. unfold fq12_unsafe_invert. nsa. Qed.
Hint Resolve ns_fq12_unsafe_invert : nsa.
Lemma ns_fq12_assign_constant c : ns (fq12_assign_constant I c). Proof. unfold fq12_assign_constant. nsa. Qed.
Hint Resolve ns_fq12_assign_constant : nsa.
End nsF.
#[export] Hint Resolve ns_fq2_reduce ns_fq2_assert_equal ns_fq2_assign_zero ns_fq2_assign_one ns_fq2_assign_constant ns_fq2_add ns_fq2_mul ns_fq2_sub ns_fq2_double ns_fq2_square ns_fq2_neg ns_fq2_conjugate ns_fq2_unsafe_invert ns_fq6_reduce ns_fq6_assert_equal ns_fq6_assign_zero ns_fq6_assign_one ns_fq6_add ns_fq6_sub ns_fq6_double ns_fq6_neg ns_fq6_assign_constant ns_fq12_reduce ns_fq12_assert_eq ns_fq12_assign_zero ns_fq12_assign_one ns_fq12_assert_one ns_fq12_add ns_fq12_sub ns_fq12_double ns_fq12_neg ns_fq12_conjugate ns_fq12_assign_constant : nsa.
Section nsP.
Context {NM : NMod}.
Variable I : rinfo.
Lemma ns_doubling_step pt : ns (doubling_step I pt). Proof. unfold doubling_step. nsa. Qed.
Hint Resolve ns_doubling_step : nsa.
Lemma ns_addition_step pt pq : ns (addition_step I pt pq). Proof. unfold addition_step. nsa. Qed.
Hint Resolve ns_addition_step : nsa.
Lemma ns_g2affine_to_g2 g : ns (g2affine_to_g2 I g). Proof. unfold g2affine_to_g2. nsa. Qed.
Hint Resolve ns_g2affine_to_g2 : nsa.
Lemma ns_g2_neg g : ns (g2_neg I g). Proof. unfold g2_neg. nsa. Qed.
Hint Resolve ns_g2_neg : nsa.
Lemma ns_ell_all ell st : (forall f k q, ns (ell f k q)) -> ns (ell_all ell st). Proof. intros He. unfold ell_all. nsa. Qed.
Lemma ns_bn_nonres a : ns (bn_nonres I a). Proof. unfold bn_nonres. nsa. Qed.
Hint Resolve ns_bn_nonres : nsa.
Lemma ns_bn_fq6_mul a b : ns (fq6_mul I (bn_nonres I) a b). Proof. apply ns_fq6_mul. nsa. Qed.
Hint Resolve ns_bn_fq6_mul : nsa.
Lemma ns_bn_fq6_square a : ns (fq6_square I (bn_nonres I) a). Proof. apply ns_fq6_square. nsa. Qed.
Hint Resolve ns_bn_fq6_square : nsa.
Lemma ns_bn_fq6_mul_by_1 a b1 : ns (fq6_mul_by_1 I (bn_nonres I) a b1). Proof. apply ns_fq6_mul_by_1. nsa. Qed.
Hint Resolve ns_bn_fq6_mul_by_1 : nsa.
Lemma ns_bn_fq6_mul_by_01 a b0 b1 : ns (fq6_mul_by_01 I (bn_nonres I) a b0 b1). Proof. apply ns_fq6_mul_by_01. nsa. Qed.
Hint Resolve ns_bn_fq6_mul_by_01 : nsa.
Lemma ns_bn_fq6_unsafe_invert x : ns (fq6_unsafe_invert I (bn_nonres I) x). Proof. apply ns_fq6_unsafe_invert. nsa. Qed.
Hint Resolve ns_bn_fq6_unsafe_invert : nsa.
Lemma ns_bn_fq6_mul_by_nonresidue a : ns (fq6_mul_by_nonresidue (bn_nonres I) a). Proof. apply ns_fq6_mul_by_nonresidue. nsa. Qed.
Hint Resolve ns_bn_fq6_mul_by_nonresidue : nsa.
Lemma ns_bn_fq12_mul a b : ns (fq12_mul I (bn_nonres I) a b). Proof. apply ns_fq12_mul. nsa. Qed.
Hint Resolve ns_bn_fq12_mul : nsa.
Lemma ns_bn_fq12_square a : ns (fq12_square I (bn_nonres I) a). Proof. apply ns_fq12_square. nsa. Qed.
Hint Resolve ns_bn_fq12_square : nsa.
Lemma ns_bn_fq12_mul_by_014 x c0 c1 c4 : ns (fq12_mul_by_014 I (bn_nonres I) x c0 c1 c4). Proof. apply ns_fq12_mul_by_014. nsa. Qed.
Hint Resolve ns_bn_fq12_mul_by_014 : nsa.
Lemma ns_bn_fq12_mul_by_034 x c0 c3 c4 : ns (fq12_mul_by_034 I (bn_nonres I) x c0 c3 c4). Proof. apply ns_fq12_mul_by_034. nsa. Qed.
Hint Resolve ns_bn_fq12_mul_by_034 : nsa.
Lemma ns_bn_fp4_square a0 a1 : ns (fp4_square I (bn_nonres I) a0 a1). Proof. apply ns_fp4_square. nsa. Qed.
Hint Resolve ns_bn_fp4_square : nsa.
Lemma ns_bn_fq12_cyclotomic_square x : ns (fq12_cyclotomic_square I (bn_nonres I) x). Proof. apply ns_fq12_cyclotomic_square. nsa. Qed.
Hint Resolve ns_bn_fq12_cyclotomic_square : nsa.
Lemma ns_bn_fq12_unsafe_invert x : ns (fq12_unsafe_invert I (bn_nonres I) x). Proof. apply ns_fq12_unsafe_invert. nsa. Qed.
Hint Resolve ns_bn_fq12_unsafe_invert : nsa.
Lemma ns_bn_fq2_frobenius_map x power : ns (bn_fq2_frobenius_map I x power). Proof. unfold bn_fq2_frobenius_map. nsa. Qed.
Hint Resolve ns_bn_fq2_frobenius_map : nsa.
Lemma ns_bn_fq6_frobenius_map x power : ns (bn_fq6_frobenius_map I x power). Proof. unfold bn_fq6_frobenius_map. nsa. Qed.
Hint Resolve ns_bn_fq6_frobenius_map : nsa.
Lemma ns_bn_fq12_frobenius_map x power : ns (bn_fq12_frobenius_map I x power). Proof. unfold bn_fq12_frobenius_map. nsa. Qed.
Hint Resolve ns_bn_fq12_frobenius_map : nsa.
Lemma ns_bn_prepare_loop g2 neg_g2 r : ns (bn_prepare_loop I g2 neg_g2 r). Proof. unfold bn_prepare_loop. nsa. Qed.
Hint Resolve ns_bn_prepare_loop : nsa.
Lemma ns_bn_prepare_g2 g2 : ns (bn_prepare_g2 I g2). Proof. unfold bn_prepare_g2. nsa. Qed.
Hint Resolve ns_bn_prepare_g2 : nsa.
Lemma ns_bn_ell f k p : ns (bn_ell I f k p). Proof. unfold bn_ell. nsa. Qed.
Hint Resolve ns_bn_ell : nsa.
Lemma ns_bn_multi_miller_loop terms : ns (bn_multi_miller_loop I terms). Proof. assert (HE : forall st, ns (ell_all (bn_ell I) st)) by (intros; apply ns_ell_all; nsa). unfold bn_multi_miller_loop. nsa. Qed.
Hint Resolve ns_bn_multi_miller_loop : nsa.
Lemma ns_bn_exp_by_x f : ns (bn_exp_by_x I f). Proof. unfold bn_exp_by_x. nsa. Qed.
Hint Resolve ns_bn_exp_by_x : nsa.
Lemma ns_bn_final_exponentiation f : ns (bn_final_exponentiation I f). Proof. unfold bn_final_exponentiation. nsa. Qed.
Hint Resolve ns_bn_final_exponentiation : nsa.
Lemma ns_bls_nonres a : ns (bls_nonres I a). Proof. unfold bls_nonres. nsa. Qed.
Hint Resolve ns_bls_nonres : nsa.
Lemma ns_bls_fq6_mul a b : ns (fq6_mul I (bls_nonres I) a b). Proof. apply ns_fq6_mul. nsa. Qed.
Hint Resolve ns_bls_fq6_mul : nsa.
Lemma ns_bls_fq6_square a : ns (fq6_square I (bls_nonres I) a). Proof. apply ns_fq6_square. nsa. Qed.
Hint Resolve ns_bls_fq6_square : nsa.
Lemma ns_bls_fq6_mul_by_1 a b1 : ns (fq6_mul_by_1 I (bls_nonres I) a b1). Proof. apply ns_fq6_mul_by_1. nsa. Qed.
Hint Resolve ns_bls_fq6_mul_by_1 : nsa.
Lemma ns_bls_fq6_mul_by_01 a b0 b1 : ns (fq6_mul_by_01 I (bls_nonres I) a b0 b1). Proof. apply ns_fq6_mul_by_01. nsa. Qed.
Hint Resolve ns_bls_fq6_mul_by_01 : nsa.
Lemma ns_bls_fq6_unsafe_invert x : ns (fq6_unsafe_invert I (bls_nonres I) x). Proof. apply ns_fq6_unsafe_invert. nsa. Qed.
Hint Resolve ns_bls_fq6_unsafe_invert : nsa.
Lemma ns_bls_fq6_mul_by_nonresidue a : ns (fq6_mul_by_nonresidue (bls_nonres I) a). Proof. apply ns_fq6_mul_by_nonresidue. nsa. Qed.
Hint Resolve ns_bls_fq6_mul_by_nonresidue : nsa.
Lemma ns_bls_fq12_mul a b : ns (fq12_mul I (bls_nonres I) a b). Proof. apply ns_fq12_mul. nsa. Qed.
Hint Resolve ns_bls_fq12_mul : nsa.
Lemma ns_bls_fq12_square a : ns (fq12_square I (bls_nonres I) a). Proof. apply ns_fq12_square. nsa. Qed.
Hint Resolve ns_bls_fq12_square : nsa.
Lemma ns_bls_fq12_mul_by_014 x c0 c1 c4 : ns (fq12_mul_by_014 I (bls_nonres I) x c0 c1 c4). Proof. apply ns_fq12_mul_by_014. nsa. Qed.
Hint Resolve ns_bls_fq12_mul_by_014 : nsa.
Lemma ns_bls_fq12_mul_by_034 x c0 c3 c4 : ns (fq12_mul_by_034 I (bls_nonres I) x c0 c3 c4). Proof. apply ns_fq12_mul_by_034. nsa. Qed.
Hint Resolve ns_bls_fq12_mul_by_034 : nsa.
Lemma ns_bls_fp4_square a0 a1 : ns (fp4_square I (bls_nonres I) a0 a1). Proof. apply ns_fp4_square. nsa. Qed.
Hint Resolve ns_bls_fp4_square : nsa.
Lemma ns_bls_fq12_cyclotomic_square x : ns (fq12_cyclotomic_square I (bls_nonres I) x). Proof. apply ns_fq12_cyclotomic_square. nsa. Qed.
Hint Resolve ns_bls_fq12_cyclotomic_square : nsa.
Lemma ns_bls_fq12_unsafe_invert x : ns (fq12_unsafe_invert I (bls_nonres I) x). Proof. apply ns_fq12_unsafe_invert. nsa. Qed.
Hint Resolve ns_bls_fq12_unsafe_invert : nsa.
Lemma ns_bls_fq2_frobenius_map x _power : ns (bls_fq2_frobenius_map I x _power). Proof. unfold bls_fq2_frobenius_map. nsa. Qed.
Hint Resolve ns_bls_fq2_frobenius_map : nsa.
Lemma ns_bls_fq6_frobenius_map x power : ns (bls_fq6_frobenius_map I x power). Proof. unfold bls_fq6_frobenius_map. nsa. Qed.
Hint Resolve ns_bls_fq6_frobenius_map : nsa.
Lemma ns_bls_fq12_frobenius_map x power : ns (bls_fq12_frobenius_map I x power). Proof. unfold bls_fq12_frobenius_map. nsa. Qed.
Hint Resolve ns_bls_fq12_frobenius_map : nsa.
Lemma ns_bls_ell f k p : ns (bls_ell I f k p). Proof. unfold bls_ell. nsa. Qed.
Hint Resolve ns_bls_ell : nsa.
Lemma ns_bls_cycolotomic_exp f : ns (bls_cycolotomic_exp I f). Proof. unfold bls_cycolotomic_exp. nsa. Qed.
Hint Resolve ns_bls_cycolotomic_exp : nsa.
Lemma ns_bls_prepare_g2 g2 : ns (bls_prepare_g2 I g2). Proof. unfold bls_prepare_g2. nsa. Qed.
Hint Resolve ns_bls_prepare_g2 : nsa.
Lemma ns_bls_multi_miller_loop terms : ns (bls_multi_miller_loop I terms). Proof. assert (HE : forall st, ns (ell_all (bls_ell I) st)) by (intros; apply ns_ell_all; nsa). unfold bls_multi_miller_loop. nsa. Qed.
Hint Resolve ns_bls_multi_miller_loop : nsa.
Lemma ns_bls_final_exponentiation f : ns (bls_final_exponentiation I f). Proof. unfold bls_final_exponentiation. nsa. Qed.
Hint Resolve ns_bls_final_exponentiation : nsa.
Lemma ns_bn_pairing terms : ns (bn_pairing I terms). Proof. unfold bn_pairing, pairing. nsa. Qed.
Hint Resolve ns_bn_pairing : nsa.
Lemma ns_bn_check_pairing terms : ns (bn_check_pairing I terms). Proof. unfold bn_check_pairing. nsa. Qed.
Hint Resolve ns_bn_check_pairing : nsa.
Lemma ns_bls_pairing terms : ns (bls_pairing I terms). Proof. unfold bls_pairing, pairing. nsa. Qed.
Hint Resolve ns_bls_pairing : nsa.
Lemma ns_bls_check_pairing terms : ns (bls_check_pairing I terms). Proof. unfold bls_check_pairing. nsa. Qed.
Hint Resolve ns_bls_check_pairing : nsa.
End nsP.
#[export] Hint Resolve ns_doubling_step ns_addition_step ns_g2affine_to_g2 ns_g2_neg ns_bn_nonres ns_bn_fq6_mul ns_bn_fq6_square ns_bn_fq6_mul_by_1 ns_bn_fq6_mul_by_01 ns_bn_fq6_unsafe_invert ns_bn_fq6_mul_by_nonresidue ns_bn_fq12_mul ns_bn_fq12_square ns_bn_fq12_mul_by_014 ns_bn_fq12_mul_by_034 ns_bn_fp4_square ns_bn_fq12_cyclotomic_square ns_bn_fq12_unsafe_invert ns_bn_fq2_frobenius_map ns_bn_fq6_frobenius_map ns_bn_fq12_frobenius_map ns_bn_prepare_loop ns_bn_prepare_g2 ns_bn_ell ns_bn_multi_miller_loop ns_bn_exp_by_x ns_bn_final_exponentiation ns_bls_nonres ns_bls_fq6_mul ns_bls_fq6_square ns_bls_fq6_mul_by_1 ns_bls_fq6_mul_by_01 ns_bls_fq6_unsafe_invert ns_bls_fq6_mul_by_nonresidue ns_bls_fq12_mul ns_bls_fq12_square ns_bls_fq12_mul_by_014 ns_bls_fq12_mul_by_034 ns_bls_fp4_square ns_bls_fq12_cyclotomic_square ns_bls_fq12_unsafe_invert ns_bls_fq2_frobenius_map ns_bls_fq6_frobenius_map ns_bls_fq12_frobenius_map ns_bls_ell ns_bls_cycolotomic_exp ns_bls_prepare_g2 ns_bls_multi_miller_loop ns_bls_final_exponentiation ns_bn_pairing ns_bn_check_pairing ns_bls_pairing ns_bls_check_pairing : nsa.
Section nsK.
Context {NM : NMod}.
Lemma ns_xor_lanes a b : ns (xor_lanes a b). Proof. unfold xor_lanes. nsa. Qed.
Hint Resolve ns_xor_lanes : nsa.
Lemma ns_k_init  : ns (k_init ). Proof. unfold k_init. nsa. Qed.
Hint Resolve ns_k_init : nsa.
Lemma ns_theta st : ns (theta st). Proof. unfold theta. nsa. Qed.
Hint Resolve ns_theta : nsa.
Lemma ns_xi st : ns (xi st). Proof. unfold xi. nsa. Qed.
Hint Resolve ns_xi : nsa.
Lemma ns_iota st round : ns (iota st round). Proof. unfold iota. nsa. Qed.
Hint Resolve ns_iota : nsa.
Lemma ns_permute st : ns (permute st). Proof. unfold permute. nsa. Qed.
Hint Resolve ns_permute : nsa.
Lemma ns_absorb st input : ns (absorb st input). Proof. unfold absorb. nsa. Qed.
Hint Resolve ns_absorb : nsa.
Lemma ns_u256_step s_bn st i : ns (u256_step s_bn st i). Proof. unfold u256_step. nsa. Qed.
Hint Resolve ns_u256_step : nsa.
Lemma ns_decompose_u256_with s_bn s : ns (decompose_u256_with s_bn s). Proof. unfold decompose_u256_with. nsa. Qed.
Hint Resolve ns_decompose_u256_with : nsa.
Lemma ns_decompose_scalar_as_u256_be s : ns (decompose_scalar_as_u256_be s). Proof. unfold decompose_scalar_as_u256_be. nsa. Qed.
Hint Resolve ns_decompose_scalar_as_u256_be : nsa.
Lemma ns_compose_loop_n k : forall s acc, (length s <= k)%nat -> ns (compose_loop acc s).
Proof. induction k as [|k IH]; intros [|b1 [|b0 s]] acc L; cbn [compose_loop]; cbn [length] in L; try lia; try solve [nsa]. apply ns_bind; [nsa|intros; apply IH; lia]. Qed.
Lemma ns_compose_loop acc s : ns (compose_loop acc s). Proof. apply (ns_compose_loop_n (length s)). reflexivity. Qed.
Hint Resolve ns_compose_loop : nsa.
Lemma ns_compose_to_scalar_be s : ns (compose_to_scalar_be s). Proof. unfold compose_to_scalar_be. nsa. Qed.
Hint Resolve ns_compose_to_scalar_be : nsa.
Lemma ns_hash_with input : ns (hash_with input). Proof. unfold hash_with. nsa. Qed.
Hint Resolve ns_hash_with : nsa.
Lemma ns_hash input : ns (hash input). Proof. unfold hash. nsa. Qed.
Hint Resolve ns_hash : nsa.
End nsK.
#[export] Hint Resolve ns_xor_lanes ns_k_init ns_theta ns_xi ns_iota ns_permute ns_absorb ns_u256_step ns_decompose_u256_with ns_decompose_scalar_as_u256_be ns_compose_loop ns_compose_to_scalar_be ns_hash_with ns_hash : nsa.
