(** The gadgets of the keccak, tower and pairing chips are programs over the recorder. *)
From Verif Require Import Prelude FieldZ Circuit Context Spec Logic Prims BaseChip RangeInfo RangeChip IntegerChip EccChip ScalarChip Msm
  SpecRecorder Progs KeccakChip Moduli PairingConsts Fq12Chip PairingChip.
Section pgF.
Context {NM : NMod}.
Variable I : rinfo.
Variable nonres : afq2 -> M afq2.
Hypothesis Hn : forall a, gadget (nonres a).
Hint Resolve Hn : pga.
Lemma pg_fq2_reduce x : gadget (fq2_reduce I x). Proof. unfold fq2_reduce. pga. Qed.
Hint Resolve pg_fq2_reduce : pga.
Lemma pg_fq2_assert_equal x y : gadget (fq2_assert_equal I x y). Proof. unfold fq2_assert_equal. pga. Qed.
Hint Resolve pg_fq2_assert_equal : pga.
Lemma pg_fq2_assign_zero  : gadget (fq2_assign_zero I ). Proof. unfold fq2_assign_zero. pga. Qed.
Hint Resolve pg_fq2_assign_zero : pga.
Lemma pg_fq2_assign_one  : gadget (fq2_assign_one I ). Proof. unfold fq2_assign_one. pga. Qed.
Hint Resolve pg_fq2_assign_one : pga.
Lemma pg_fq2_assign_constant c : gadget (fq2_assign_constant I c). Proof. unfold fq2_assign_constant. pga. Qed.
Hint Resolve pg_fq2_assign_constant : pga.
Lemma pg_fq2_add a b : gadget (fq2_add I a b). Proof. unfold fq2_add. pga. Qed.
Hint Resolve pg_fq2_add : pga.
Lemma pg_fq2_mul a b : gadget (fq2_mul I a b). Proof. unfold fq2_mul. pga. Qed.
Hint Resolve pg_fq2_mul : pga.
Lemma pg_fq2_sub a b : gadget (fq2_sub I a b). Proof. unfold fq2_sub. pga. Qed.
Hint Resolve pg_fq2_sub : pga.
Lemma pg_fq2_double a : gadget (fq2_double I a). Proof. unfold fq2_double. pga. Qed.
Hint Resolve pg_fq2_double : pga.
Lemma pg_fq2_square a : gadget (fq2_square I a). Proof. unfold fq2_square. pga. Qed.
Hint Resolve pg_fq2_square : pga.
Lemma pg_fq2_neg a : gadget (fq2_neg I a). Proof. unfold fq2_neg. pga. Qed.
Hint Resolve pg_fq2_neg : pga.
Lemma pg_fq2_conjugate a : gadget (fq2_conjugate I a). Proof. unfold fq2_conjugate. pga. Qed.
Hint Resolve pg_fq2_conjugate : pga.
Lemma pg_fq2_unsafe_invert x : gadget (fq2_unsafe_invert I x). Proof. unfold fq2_unsafe_invert. pga. Qed.
Hint Resolve pg_fq2_unsafe_invert : pga.
Lemma pg_fq6_reduce x : gadget (fq6_reduce I x). Proof. unfold fq6_reduce. pga. Qed.
Hint Resolve pg_fq6_reduce : pga.
Lemma pg_fq6_assert_equal x y : gadget (fq6_assert_equal I x y). Proof. unfold fq6_assert_equal. pga. Qed.
Hint Resolve pg_fq6_assert_equal : pga.
Lemma pg_fq6_assign_zero  : gadget (fq6_assign_zero I ). Proof. unfold fq6_assign_zero. pga. Qed.
Hint Resolve pg_fq6_assign_zero : pga.
Lemma pg_fq6_assign_one  : gadget (fq6_assign_one I ). Proof. unfold fq6_assign_one. pga. Qed.
Hint Resolve pg_fq6_assign_one : pga.
Lemma pg_fq6_add a b : gadget (fq6_add I a b). Proof. unfold fq6_add. pga. Qed.
Hint Resolve pg_fq6_add : pga.
Lemma pg_fq6_mul a b : gadget (fq6_mul I nonres a b). Proof. unfold fq6_mul. pga. Qed.
Hint Resolve pg_fq6_mul : pga.
Lemma pg_fq6_sub a b : gadget (fq6_sub I a b). Proof. unfold fq6_sub. pga. Qed.
Hint Resolve pg_fq6_sub : pga.
Lemma pg_fq6_double a : gadget (fq6_double I a). Proof. unfold fq6_double. pga. Qed.
Hint Resolve pg_fq6_double : pga.
Lemma pg_fq6_square a : gadget (fq6_square I nonres a). Proof. unfold fq6_square. pga. Qed.
Hint Resolve pg_fq6_square : pga.
Lemma pg_fq6_neg a : gadget (fq6_neg I a). Proof. unfold fq6_neg. pga. Qed.
Hint Resolve pg_fq6_neg : pga.
Lemma pg_fq6_mul_by_1 a b1 : gadget (fq6_mul_by_1 I nonres a b1). Proof. unfold fq6_mul_by_1. pga. Qed.
Hint Resolve pg_fq6_mul_by_1 : pga.
Lemma pg_fq6_mul_by_01 a b0 b1 : gadget (fq6_mul_by_01 I nonres a b0 b1). Proof. unfold fq6_mul_by_01. pga. Qed.
Hint Resolve pg_fq6_mul_by_01 : pga.
Lemma pg_fq6_unsafe_invert x : gadget (fq6_unsafe_invert I nonres x). Proof. unfold fq6_unsafe_invert. pga. Qed.
Hint Resolve pg_fq6_unsafe_invert : pga.
Lemma pg_fq6_assign_constant c : gadget (fq6_assign_constant I c). Proof. unfold fq6_assign_constant. pga. Qed.
Hint Resolve pg_fq6_assign_constant : pga.
Lemma pg_fq6_mul_by_nonresidue a : gadget (fq6_mul_by_nonresidue nonres a). Proof. unfold fq6_mul_by_nonresidue. pga. Qed.
Hint Resolve pg_fq6_mul_by_nonresidue : pga.
Lemma pg_fq12_reduce x : gadget (fq12_reduce I x). Proof. unfold fq12_reduce. pga. Qed.
Hint Resolve pg_fq12_reduce : pga.
Lemma pg_fq12_assert_eq x y : gadget (fq12_assert_eq I x y). Proof. unfold fq12_assert_eq. pga. Qed.
Hint Resolve pg_fq12_assert_eq : pga.
Lemma pg_fq12_assign_zero  : gadget (fq12_assign_zero I ). Proof. unfold fq12_assign_zero. pga. Qed.
Hint Resolve pg_fq12_assign_zero : pga.
Lemma pg_fq12_assign_one  : gadget (fq12_assign_one I ). Proof. unfold fq12_assign_one. pga. Qed.
Hint Resolve pg_fq12_assign_one : pga.
Lemma pg_fq12_assert_one x : gadget (fq12_assert_one I x). Proof. unfold fq12_assert_one. pga. Qed.
Hint Resolve pg_fq12_assert_one : pga.
Lemma pg_fq12_add a b : gadget (fq12_add I a b). Proof. unfold fq12_add. pga. Qed.
Hint Resolve pg_fq12_add : pga.
Lemma pg_fq12_mul a b : gadget (fq12_mul I nonres a b). Proof. unfold fq12_mul. pga. Qed.
Hint Resolve pg_fq12_mul : pga.
Lemma pg_fq12_sub a b : gadget (fq12_sub I a b). Proof. unfold fq12_sub. pga. Qed.
Hint Resolve pg_fq12_sub : pga.
Lemma pg_fq12_double a : gadget (fq12_double I a). Proof. unfold fq12_double. pga. Qed.
Hint Resolve pg_fq12_double : pga.
Lemma pg_fq12_square a : gadget (fq12_square I nonres a). Proof. unfold fq12_square. pga. Qed.
Hint Resolve pg_fq12_square : pga.
Lemma pg_fq12_neg a : gadget (fq12_neg I a). Proof. unfold fq12_neg. pga. Qed.
Hint Resolve pg_fq12_neg : pga.
Lemma pg_fq12_conjugate x : gadget (fq12_conjugate I x). Proof. unfold fq12_conjugate. pga. Qed.
Hint Resolve pg_fq12_conjugate : pga.
Lemma pg_fq12_mul_by_014 x c0 c1 c4 : gadget (fq12_mul_by_014 I nonres x c0 c1 c4). Proof. unfold fq12_mul_by_014. pga. Qed.
Hint Resolve pg_fq12_mul_by_014 : pga.
Lemma pg_fq12_mul_by_034 x c0 c3 c4 : gadget (fq12_mul_by_034 I nonres x c0 c3 c4). Proof. unfold fq12_mul_by_034. pga. Qed.
Hint Resolve pg_fq12_mul_by_034 : pga.
Lemma pg_fp4_square a0 a1 : gadget (fp4_square I nonres a0 a1). Proof. unfold fp4_square. pga. Qed.
Hint Resolve pg_fp4_square : pga.
Lemma pg_fq12_cyclotomic_square x : gadget (fq12_cyclotomic_square I nonres x). Proof. unfold fq12_cyclotomic_square. pga. Qed.
Hint Resolve pg_fq12_cyclotomic_square : pga.
Lemma pg_fq12_unsafe_invert x : gadget (fq12_unsafe_invert I nonres x). Proof. unfold fq12_unsafe_invert. pga. Qed.
Hint Resolve pg_fq12_unsafe_invert : pga.
Lemma pg_fq12_assign_constant c : gadget (fq12_assign_constant I c). Proof. unfold fq12_assign_constant. pga. Qed.
Hint Resolve pg_fq12_assign_constant : pga.
End pgF.
#[export] Hint Resolve pg_fq2_reduce pg_fq2_assert_equal pg_fq2_assign_zero pg_fq2_assign_one pg_fq2_assign_constant pg_fq2_add pg_fq2_mul pg_fq2_sub pg_fq2_double pg_fq2_square pg_fq2_neg pg_fq2_conjugate pg_fq2_unsafe_invert pg_fq6_reduce pg_fq6_assert_equal pg_fq6_assign_zero pg_fq6_assign_one pg_fq6_add pg_fq6_sub pg_fq6_double pg_fq6_neg pg_fq6_assign_constant pg_fq12_reduce pg_fq12_assert_eq pg_fq12_assign_zero pg_fq12_assign_one pg_fq12_assert_one pg_fq12_add pg_fq12_sub pg_fq12_double pg_fq12_neg pg_fq12_conjugate pg_fq12_assign_constant : pga.
Section pgP.
Context {NM : NMod}.
Variable I : rinfo.
Lemma pg_doubling_step pt : gadget (doubling_step I pt). Proof. unfold doubling_step. pga. Qed.
Hint Resolve pg_doubling_step : pga.
Lemma pg_addition_step pt pq : gadget (addition_step I pt pq). Proof. unfold addition_step. pga. Qed.
Hint Resolve pg_addition_step : pga.
Lemma pg_g2affine_to_g2 g : gadget (g2affine_to_g2 I g). Proof. unfold g2affine_to_g2. pga. Qed.
Hint Resolve pg_g2affine_to_g2 : pga.
Lemma pg_g2_neg g : gadget (g2_neg I g). Proof. unfold g2_neg. pga. Qed.
Hint Resolve pg_g2_neg : pga.
Lemma pg_ell_all ell st : (forall f k q, gadget (ell f k q)) -> gadget (ell_all ell st). Proof. intros He. unfold ell_all. pga. Qed.
Lemma pg_bn_nonres a : gadget (bn_nonres I a). Proof. unfold bn_nonres. pga. Qed.
Hint Resolve pg_bn_nonres : pga.
Lemma pg_bn_fq6_mul a b : gadget (fq6_mul I (bn_nonres I) a b). Proof. apply pg_fq6_mul. pga. Qed.
Hint Resolve pg_bn_fq6_mul : pga.
Lemma pg_bn_fq6_square a : gadget (fq6_square I (bn_nonres I) a). Proof. apply pg_fq6_square. pga. Qed.
Hint Resolve pg_bn_fq6_square : pga.
Lemma pg_bn_fq6_mul_by_1 a b1 : gadget (fq6_mul_by_1 I (bn_nonres I) a b1). Proof. apply pg_fq6_mul_by_1. pga. Qed.
Hint Resolve pg_bn_fq6_mul_by_1 : pga.
Lemma pg_bn_fq6_mul_by_01 a b0 b1 : gadget (fq6_mul_by_01 I (bn_nonres I) a b0 b1). Proof. apply pg_fq6_mul_by_01. pga. Qed.
Hint Resolve pg_bn_fq6_mul_by_01 : pga.
Lemma pg_bn_fq6_unsafe_invert x : gadget (fq6_unsafe_invert I (bn_nonres I) x). Proof. apply pg_fq6_unsafe_invert. pga. Qed.
Hint Resolve pg_bn_fq6_unsafe_invert : pga.
Lemma pg_bn_fq6_mul_by_nonresidue a : gadget (fq6_mul_by_nonresidue (bn_nonres I) a). Proof. apply pg_fq6_mul_by_nonresidue. pga. Qed.
Hint Resolve pg_bn_fq6_mul_by_nonresidue : pga.
Lemma pg_bn_fq12_mul a b : gadget (fq12_mul I (bn_nonres I) a b). Proof. apply pg_fq12_mul. pga. Qed.
Hint Resolve pg_bn_fq12_mul : pga.
Lemma pg_bn_fq12_square a : gadget (fq12_square I (bn_nonres I) a). Proof. apply pg_fq12_square. pga. Qed.
Hint Resolve pg_bn_fq12_square : pga.
Lemma pg_bn_fq12_mul_by_014 x c0 c1 c4 : gadget (fq12_mul_by_014 I (bn_nonres I) x c0 c1 c4). Proof. apply pg_fq12_mul_by_014. pga. Qed.
Hint Resolve pg_bn_fq12_mul_by_014 : pga.
Lemma pg_bn_fq12_mul_by_034 x c0 c3 c4 : gadget (fq12_mul_by_034 I (bn_nonres I) x c0 c3 c4). Proof. apply pg_fq12_mul_by_034. pga. Qed.
Hint Resolve pg_bn_fq12_mul_by_034 : pga.
Lemma pg_bn_fp4_square a0 a1 : gadget (fp4_square I (bn_nonres I) a0 a1). Proof. apply pg_fp4_square. pga. Qed.
Hint Resolve pg_bn_fp4_square : pga.
Lemma pg_bn_fq12_cyclotomic_square x : gadget (fq12_cyclotomic_square I (bn_nonres I) x). Proof. apply pg_fq12_cyclotomic_square. pga. Qed.
Hint Resolve pg_bn_fq12_cyclotomic_square : pga.
Lemma pg_bn_fq12_unsafe_invert x : gadget (fq12_unsafe_invert I (bn_nonres I) x). Proof. apply pg_fq12_unsafe_invert. pga. Qed.
Hint Resolve pg_bn_fq12_unsafe_invert : pga.
Lemma pg_bn_fq2_frobenius_map x power : gadget (bn_fq2_frobenius_map I x power). Proof. unfold bn_fq2_frobenius_map. pga. Qed.
Hint Resolve pg_bn_fq2_frobenius_map : pga.
Lemma pg_bn_fq6_frobenius_map x power : gadget (bn_fq6_frobenius_map I x power). Proof. unfold bn_fq6_frobenius_map. pga. Qed.
Hint Resolve pg_bn_fq6_frobenius_map : pga.
Lemma pg_bn_fq12_frobenius_map x power : gadget (bn_fq12_frobenius_map I x power). Proof. unfold bn_fq12_frobenius_map. pga. Qed.
Hint Resolve pg_bn_fq12_frobenius_map : pga.
Lemma pg_bn_prepare_loop g2 neg_g2 r : gadget (bn_prepare_loop I g2 neg_g2 r). Proof. unfold bn_prepare_loop. pga. Qed.
Hint Resolve pg_bn_prepare_loop : pga.
Lemma pg_bn_prepare_g2 g2 : gadget (bn_prepare_g2 I g2). Proof. unfold bn_prepare_g2. pga. Qed.
Hint Resolve pg_bn_prepare_g2 : pga.
Lemma pg_bn_ell f k p : gadget (bn_ell I f k p). Proof. unfold bn_ell. pga. Qed.
Hint Resolve pg_bn_ell : pga.
Lemma pg_bn_multi_miller_loop terms : gadget (bn_multi_miller_loop I terms). Proof. assert (HE : forall st, gadget (ell_all (bn_ell I) st)) by (intros; apply pg_ell_all; pga). unfold bn_multi_miller_loop. pga. Qed.
Hint Resolve pg_bn_multi_miller_loop : pga.
Lemma pg_bn_exp_by_x f : gadget (bn_exp_by_x I f). Proof. unfold bn_exp_by_x. pga. Qed.
Hint Resolve pg_bn_exp_by_x : pga.
Lemma pg_bn_final_exponentiation f : gadget (bn_final_exponentiation I f). Proof. unfold bn_final_exponentiation. pga. Qed.
Hint Resolve pg_bn_final_exponentiation : pga.
Lemma pg_bls_nonres a : gadget (bls_nonres I a). Proof. unfold bls_nonres. pga. Qed.
Hint Resolve pg_bls_nonres : pga.
Lemma pg_bls_fq6_mul a b : gadget (fq6_mul I (bls_nonres I) a b). Proof. apply pg_fq6_mul. pga. Qed.
Hint Resolve pg_bls_fq6_mul : pga.
Lemma pg_bls_fq6_square a : gadget (fq6_square I (bls_nonres I) a). Proof. apply pg_fq6_square. pga. Qed.
Hint Resolve pg_bls_fq6_square : pga.
Lemma pg_bls_fq6_mul_by_1 a b1 : gadget (fq6_mul_by_1 I (bls_nonres I) a b1). Proof. apply pg_fq6_mul_by_1. pga. Qed.
Hint Resolve pg_bls_fq6_mul_by_1 : pga.
Lemma pg_bls_fq6_mul_by_01 a b0 b1 : gadget (fq6_mul_by_01 I (bls_nonres I) a b0 b1). Proof. apply pg_fq6_mul_by_01. pga. Qed.
Hint Resolve pg_bls_fq6_mul_by_01 : pga.
Lemma pg_bls_fq6_unsafe_invert x : gadget (fq6_unsafe_invert I (bls_nonres I) x). Proof. apply pg_fq6_unsafe_invert. pga. Qed.
Hint Resolve pg_bls_fq6_unsafe_invert : pga.
Lemma pg_bls_fq6_mul_by_nonresidue a : gadget (fq6_mul_by_nonresidue (bls_nonres I) a). Proof. apply pg_fq6_mul_by_nonresidue. pga. Qed.
Hint Resolve pg_bls_fq6_mul_by_nonresidue : pga.
Lemma pg_bls_fq12_mul a b : gadget (fq12_mul I (bls_nonres I) a b). Proof. apply pg_fq12_mul. pga. Qed.
Hint Resolve pg_bls_fq12_mul : pga.
Lemma pg_bls_fq12_square a : gadget (fq12_square I (bls_nonres I) a). Proof. apply pg_fq12_square. pga. Qed.
Hint Resolve pg_bls_fq12_square : pga.
Lemma pg_bls_fq12_mul_by_014 x c0 c1 c4 : gadget (fq12_mul_by_014 I (bls_nonres I) x c0 c1 c4). Proof. apply pg_fq12_mul_by_014. pga. Qed.
Hint Resolve pg_bls_fq12_mul_by_014 : pga.
Lemma pg_bls_fq12_mul_by_034 x c0 c3 c4 : gadget (fq12_mul_by_034 I (bls_nonres I) x c0 c3 c4). Proof. apply pg_fq12_mul_by_034. pga. Qed.
Hint Resolve pg_bls_fq12_mul_by_034 : pga.
Lemma pg_bls_fp4_square a0 a1 : gadget (fp4_square I (bls_nonres I) a0 a1). Proof. apply pg_fp4_square. pga. Qed.
Hint Resolve pg_bls_fp4_square : pga.
Lemma pg_bls_fq12_cyclotomic_square x : gadget (fq12_cyclotomic_square I (bls_nonres I) x). Proof. apply pg_fq12_cyclotomic_square. pga. Qed.
Hint Resolve pg_bls_fq12_cyclotomic_square : pga.
Lemma pg_bls_fq12_unsafe_invert x : gadget (fq12_unsafe_invert I (bls_nonres I) x). Proof. apply pg_fq12_unsafe_invert. pga. Qed.
Hint Resolve pg_bls_fq12_unsafe_invert : pga.
Lemma pg_bls_fq2_frobenius_map x _power : gadget (bls_fq2_frobenius_map I x _power). Proof. unfold bls_fq2_frobenius_map. pga. Qed.
Hint Resolve pg_bls_fq2_frobenius_map : pga.
Lemma pg_bls_fq6_frobenius_map x power : gadget (bls_fq6_frobenius_map I x power). Proof. unfold bls_fq6_frobenius_map. pga. Qed.
Hint Resolve pg_bls_fq6_frobenius_map : pga.
Lemma pg_bls_fq12_frobenius_map x power : gadget (bls_fq12_frobenius_map I x power). Proof. unfold bls_fq12_frobenius_map. pga. Qed.
Hint Resolve pg_bls_fq12_frobenius_map : pga.
Lemma pg_bls_ell f k p : gadget (bls_ell I f k p). Proof. unfold bls_ell. pga. Qed.
Hint Resolve pg_bls_ell : pga.
Lemma pg_bls_cycolotomic_exp f : gadget (bls_cycolotomic_exp I f). Proof. unfold bls_cycolotomic_exp. pga. Qed.
Hint Resolve pg_bls_cycolotomic_exp : pga.
Lemma pg_bls_prepare_g2 g2 : gadget (bls_prepare_g2 I g2). Proof. unfold bls_prepare_g2. pga. Qed.
Hint Resolve pg_bls_prepare_g2 : pga.
Lemma pg_bls_multi_miller_loop terms : gadget (bls_multi_miller_loop I terms). Proof. assert (HE : forall st, gadget (ell_all (bls_ell I) st)) by (intros; apply pg_ell_all; pga). unfold bls_multi_miller_loop. pga. Qed.
Hint Resolve pg_bls_multi_miller_loop : pga.
Lemma pg_bls_final_exponentiation f : gadget (bls_final_exponentiation I f). Proof. unfold bls_final_exponentiation. pga. Qed.
Hint Resolve pg_bls_final_exponentiation : pga.
Lemma pg_bn_pairing terms : gadget (bn_pairing I terms). Proof. unfold bn_pairing, pairing. pga. Qed.
Hint Resolve pg_bn_pairing : pga.
Lemma pg_bn_check_pairing terms : gadget (bn_check_pairing I terms). Proof. unfold bn_check_pairing. pga. Qed.
Hint Resolve pg_bn_check_pairing : pga.
Lemma pg_bls_pairing terms : gadget (bls_pairing I terms). Proof. unfold bls_pairing, pairing. pga. Qed.
Hint Resolve pg_bls_pairing : pga.
Lemma pg_bls_check_pairing terms : gadget (bls_check_pairing I terms). Proof. unfold bls_check_pairing. pga. Qed.
Hint Resolve pg_bls_check_pairing : pga.
End pgP.
#[export] Hint Resolve pg_doubling_step pg_addition_step pg_g2affine_to_g2 pg_g2_neg pg_bn_nonres pg_bn_fq6_mul pg_bn_fq6_square pg_bn_fq6_mul_by_1 pg_bn_fq6_mul_by_01 pg_bn_fq6_unsafe_invert pg_bn_fq6_mul_by_nonresidue pg_bn_fq12_mul pg_bn_fq12_square pg_bn_fq12_mul_by_014 pg_bn_fq12_mul_by_034 pg_bn_fp4_square pg_bn_fq12_cyclotomic_square pg_bn_fq12_unsafe_invert pg_bn_fq2_frobenius_map pg_bn_fq6_frobenius_map pg_bn_fq12_frobenius_map pg_bn_prepare_loop pg_bn_prepare_g2 pg_bn_ell pg_bn_multi_miller_loop pg_bn_exp_by_x pg_bn_final_exponentiation pg_bls_nonres pg_bls_fq6_mul pg_bls_fq6_square pg_bls_fq6_mul_by_1 pg_bls_fq6_mul_by_01 pg_bls_fq6_unsafe_invert pg_bls_fq6_mul_by_nonresidue pg_bls_fq12_mul pg_bls_fq12_square pg_bls_fq12_mul_by_014 pg_bls_fq12_mul_by_034 pg_bls_fp4_square pg_bls_fq12_cyclotomic_square pg_bls_fq12_unsafe_invert pg_bls_fq2_frobenius_map pg_bls_fq6_frobenius_map pg_bls_fq12_frobenius_map pg_bls_ell pg_bls_cycolotomic_exp pg_bls_prepare_g2 pg_bls_multi_miller_loop pg_bls_final_exponentiation pg_bn_pairing pg_bn_check_pairing pg_bls_pairing pg_bls_check_pairing : pga.
Section pgK.
Context {NM : NMod}.
Lemma pg_xor_lanes a b : gadget (xor_lanes a b). Proof. unfold xor_lanes. pga. Qed.
Hint Resolve pg_xor_lanes : pga.
Lemma pg_k_init  : gadget (k_init ). Proof. unfold k_init. pga. Qed.
Hint Resolve pg_k_init : pga.
Lemma pg_theta st : gadget (theta st). Proof. unfold theta. pga. Qed.
Hint Resolve pg_theta : pga.
Lemma pg_xi st : gadget (xi st). Proof. unfold xi. pga. Qed.
Hint Resolve pg_xi : pga.
Lemma pg_iota st round : gadget (iota st round). Proof. unfold iota. pga. Qed.
Hint Resolve pg_iota : pga.
Lemma pg_permute st : gadget (permute st). Proof. unfold permute. pga. Qed.
Hint Resolve pg_permute : pga.
Lemma pg_absorb st input : gadget (absorb st input). Proof. unfold absorb. pga. Qed.
Hint Resolve pg_absorb : pga.
Lemma pg_u256_step s_bn st i : gadget (u256_step s_bn st i). Proof. unfold u256_step. pga. Qed.
Hint Resolve pg_u256_step : pga.
Lemma pg_decompose_u256_with s_bn s : gadget (decompose_u256_with s_bn s). Proof. unfold decompose_u256_with. pga. Qed.
Hint Resolve pg_decompose_u256_with : pga.
Lemma pg_decompose_scalar_as_u256_be s : gadget (decompose_scalar_as_u256_be s). Proof. unfold decompose_scalar_as_u256_be. pga. Qed.
Hint Resolve pg_decompose_scalar_as_u256_be : pga.
Lemma pg_compose_loop_n k : forall s acc, (length s <= k)%nat -> gadget (compose_loop acc s).
Proof. induction k as [|k IH]; intros [|b1 [|b0 s]] acc L; cbn [compose_loop]; cbn [length] in L; try lia; try solve [pga]. apply pg_bind; [pga|intros; apply IH; lia]. Qed.
Lemma pg_compose_loop acc s : gadget (compose_loop acc s). Proof. apply (pg_compose_loop_n (length s)). reflexivity. Qed.
Hint Resolve pg_compose_loop : pga.
Lemma pg_compose_to_scalar_be s : gadget (compose_to_scalar_be s). Proof. unfold compose_to_scalar_be. pga. Qed.
Hint Resolve pg_compose_to_scalar_be : pga.
Lemma pg_hash_with input : gadget (hash_with input). Proof. unfold hash_with. pga. Qed.
Hint Resolve pg_hash_with : pga.
Lemma pg_hash input : gadget (hash input). Proof. unfold hash. pga. Qed.
Hint Resolve pg_hash : pga.
End pgK.
#[export] Hint Resolve pg_xor_lanes pg_k_init pg_theta pg_xi pg_iota pg_permute pg_absorb pg_u256_step pg_decompose_u256_with pg_decompose_scalar_as_u256_be pg_compose_loop pg_compose_to_scalar_be pg_hash_with pg_hash : pga.
