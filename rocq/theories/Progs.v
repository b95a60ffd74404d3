(** All gadgets are programs over the recorder.  The lemmas follow the append-only ones. *)
From Verif Require Import Msm ParWindows MsmProofs SelectMsm.
From Verif Require Import Prelude FieldZ Circuit Context Spec Logic ModArith Prims BaseChip BaseProofs
  RangeInfo RangeChip IntegerChip InfoProofs IntArith RangeProofs IntInv IntSound EccChip EccProofs ScalarChip ScalarProofs
  SelectProofs SpecRecorder.

Section PG.
Context {NM : NMod}.
Lemma pg_ret {X} (x : X) : gadget (mret x). Proof. apply g_ret. Qed.
Lemma pg_panic {X} : gadget (@mpanic X). Proof. apply g_panic. Qed.
Lemma pg_assert b : gadget (massert b). Proof. apply g_assert. Qed.
Lemma pg_opt {X} (o : option X) : gadget (mopt o). Proof. destruct o; [apply g_ret|apply g_panic]. Qed.
Lemma pg_nth {X} (l : list X) i : gadget (mnth l i). Proof. apply pg_opt. Qed.
Lemma pg_bind {X Y} (m : M X) (k : X -> M Y) : gadget m -> (forall x, gadget (k x)) -> gadget (mbind m k).
Proof. intros H1 H2. apply g_bind; assumption. Qed.
Lemma pg_mapM {X Y} (f : X -> M Y) l : (forall x, gadget (f x)) -> gadget (mapM f l).
Proof.
  intros Hf; induction l as [|x l IH]; simpl; [apply pg_ret|].
  apply pg_bind; [auto|intros]. apply pg_bind; [auto|intros]. apply pg_ret.
Qed.
Lemma pg_foldM {X S} (f : S -> X -> M S) l s : (forall s x, gadget (f s x)) -> gadget (foldM f s l).
Proof.
  intros Hf; revert s; induction l as [|x l IH]; intros s; simpl; [apply pg_ret|]. apply pg_bind; auto.
Qed.
Lemma pg_ubind {X Y} (m : M (uresult X)) (k : X -> M (uresult Y)) : gadget m -> (forall x, gadget (k x)) -> gadget (ubind m k).
Proof. intros Hm Hk. apply pg_bind; [auto|]. intros [x|e]; [auto|apply pg_ret]. Qed.
Lemma pg_ufoldM {X S} (f : S -> X -> M (uresult S)) l s : (forall s x, gadget (f s x)) -> gadget (ufoldM f s l).
Proof.
  intros Hf; revert s; induction l as [|x l IH]; intros s; simpl; [apply pg_ret|]. apply pg_ubind; auto.
Qed.
Lemma pg_one_line pairs constant muls next : gadget (one_line pairs constant muls next). Proof. apply g_one_line. Qed.
Lemma pg_one_line_with_last pairs tail constant muls next : gadget (one_line_with_last pairs tail constant muls next). Proof. apply g_one_line_with_last. Qed.
Lemma pg_assign_limb bn k b : gadget (assign_limb bn k b). Proof. apply g_limb. Qed.
Lemma pg_assign_common bn : gadget (assign_common bn). Proof. apply g_common. Qed.
Lemma pg_assign_cache_value v off g sc : gadget (assign_cache_value v off g sc). Proof. apply g_cache. Qed.
Lemma pg_assign_selected_value v off g sc : gadget (assign_selected_value v off g sc). Proof. apply g_select. Qed.
End PG.
Create HintDb pga discriminated.
Global Hint Constants Opaque : pga.
Global Hint Transparent acond : pga.
Global Hint Resolve pg_ret pg_panic pg_assert pg_opt pg_nth
  pg_one_line pg_one_line_with_last pg_assign_selected_value pg_assign_cache_value pg_assign_common pg_assign_limb : pga.
Ltac pga1 :=
  match goal with
  | |- gadget (mbind _ _) => apply pg_bind
  | |- gadget (ubind _ _) => apply pg_ubind
  | |- gadget (mapM _ _) => apply pg_mapM
  | |- gadget (foldM _ _ _) => apply pg_foldM
  | |- gadget (ufoldM _ _ _) => apply pg_ufoldM
  | |- gadget (if ?b then _ else _) => destruct b
  | |- gadget (match ?x with _ => _ end) => destruct x
  end.
Ltac pga := repeat (intros; first [solve [auto 1 with pga nocore] | progress cbv beta zeta | pga1]).
Section Base.
Context {NM : NMod}.
Lemma pg_one_line_add p c : gadget (one_line_add p c).
Proof. unfold one_line_add. pga. Qed.
Hint Resolve pg_one_line_add : pga.
Lemma pg_swcol e c : gadget (sum_with_constant_in_one_line e c).
Proof. unfold sum_with_constant_in_one_line. pga. Qed.
Hint Resolve pg_swcol : pga.
Lemma pg_swc e c : gadget (sum_with_constant e c).
Proof. unfold sum_with_constant. pga. Qed.
Hint Resolve pg_swc : pga.
Lemma pg_add a b : gadget (add a b).
Proof. unfold add. pga. Qed.
Lemma pg_add_constant a b : gadget (add_constant a b).
Proof. unfold add_constant. pga. Qed.
Lemma pg_sub a b : gadget (sub a b).
Proof. unfold sub. pga. Qed.
Lemma pg_mul a b : gadget (mul a b).
Proof. unfold mul. pga. Qed.
Lemma pg_mul_add_constant a b c : gadget (mul_add_constant a b c).
Proof. unfold mul_add_constant. pga. Qed.
Lemma pg_mul_add a b c d e : gadget (mul_add a b c d e).
Proof. unfold mul_add. pga. Qed.
Hint Resolve pg_add pg_add_constant pg_sub pg_mul pg_mul_add_constant
  pg_mul_add : pga.
Lemma pg_mul_add_lines f t ls : gadget (mul_add_lines f t ls).
Proof.
  revert f t; induction ls as [|[[[a b] c] cc] ls IH]; intros f t; cbn [mul_add_lines]; pga.
Qed.
Hint Resolve pg_mul_add_lines : pga.
Lemma pg_mawnl ls : gadget (mul_add_with_next_line ls).
Proof. unfold mul_add_with_next_line. pga. Qed.
Lemma pg_invert_unsafe a : gadget (invert_unsafe a).
Proof. unfold invert_unsafe. pga. Qed.
Lemma pg_invert a : gadget (invert a).
Proof. unfold invert. pga. Qed.
Hint Resolve pg_mawnl pg_invert_unsafe pg_invert : pga.
Lemma pg_is_zero a : gadget (is_zero a).
Proof. unfold is_zero. pga. Qed.
Lemma pg_div_unsafe a b : gadget (div_unsafe a b).
Proof. unfold div_unsafe. pga. Qed.
Lemma pg_assign_constant a : gadget (assign_constant a).
Proof. unfold assign_constant. pga. Qed.
Lemma pg_assign a : gadget (assign a).
Proof. unfold assign. pga. Qed.
Lemma pg_assign_bit a : gadget (assign_bit a).
Proof. unfold assign_bit. pga. Qed.
Lemma pg_assert_equal a b : gadget (assert_equal a b).
Proof. unfold assert_equal. pga. Qed.
Lemma pg_assert_constant a b : gadget (assert_constant a b).
Proof. unfold assert_constant. pga. Qed.
Lemma pg_assert_bit a : gadget (assert_bit a).
Proof. unfold assert_bit. pga. Qed.
Hint Resolve pg_is_zero pg_div_unsafe pg_assign_constant pg_assign
  pg_assign_bit pg_assert_equal pg_assert_constant pg_assert_bit : pga.
Lemma pg_and a b : gadget (and_ a b).
Proof. unfold and_. pga. Qed.
Lemma pg_not a : gadget (not_ a).
Proof. unfold not_. pga. Qed.
Lemma pg_not_and a b : gadget (not_and a b).
Proof. unfold not_and. pga. Qed.
Lemma pg_or a b : gadget (or_ a b).
Proof. unfold or_. pga. Qed.
Lemma pg_xor a b : gadget (xor_ a b).
Proof. unfold xor_. pga. Qed.
Lemma pg_xnor a b : gadget (xnor_ a b).
Proof. unfold xnor_. pga. Qed.
Lemma pg_bisec c a b : gadget (bisec c a b).
Proof. unfold bisec. pga. Qed.
Lemma pg_bisec_cond c a b : gadget (bisec_cond c a b).
Proof. apply pg_bisec. Qed.
Lemma pg_assert_true a : gadget (assert_true a).
Proof. unfold assert_true. pga. Qed.
Lemma pg_assert_false a : gadget (assert_false a).
Proof. unfold assert_false. pga. Qed.
Lemma pg_try_assert_false a : gadget (try_assert_false a).
Proof. unfold try_assert_false. pga. Qed.

End Base.
Global Hint Resolve pg_one_line_add pg_swcol pg_swc pg_add pg_add_constant
  pg_sub pg_mul pg_mul_add_constant
  pg_mul_add pg_mul_add_lines pg_mawnl pg_invert_unsafe pg_invert
  pg_is_zero pg_div_unsafe pg_assign_constant pg_assign
  pg_assign_bit pg_assert_equal pg_assert_constant pg_assert_bit
  pg_and pg_not pg_not_and pg_or pg_xor pg_xnor pg_bisec
  pg_bisec_cond pg_assert_true pg_assert_false pg_try_assert_false : pga.

Section AppI.
Context {NM : NMod}.
Variable I : rinfo.
Lemma pg_native_of l : gadget (native_of I l).
Proof. unfold native_of. pga. Qed.
Lemma pg_nonleading bn : gadget (assign_nonleading_limb bn).
Proof. apply pg_assign_limb. Qed.
Lemma pg_w_lead bn : gadget (assign_w_ceil_leading_limb I bn).
Proof. apply pg_assign_limb. Qed.
Lemma pg_d_lead bn : gadget (assign_d_leading_limb I bn).
Proof. apply pg_assign_limb. Qed.
Hint Resolve pg_native_of pg_nonleading pg_w_lead pg_d_lead : pga.
Lemma pg_mul_column a b d p : gadget (mul_column I a b d p).
Proof. unfold mul_column. pga. Qed.
Lemma pg_mul_carry u : gadget (mul_carry I u).
Proof. unfold mul_carry. pga. Qed.
Hint Resolve pg_mul_column pg_mul_carry : pga.
Lemma pg_mul_limbs a b d rem : gadget (mul_equation_on_limbs I a b d rem).
Proof. unfold mul_equation_on_limbs. pga. Qed.
Lemma pg_mul_native a b d rem : gadget (mul_equation_on_native I a b d rem).
Proof. unfold mul_equation_on_native. pga. Qed.
Lemma pg_assign_w x : gadget (assign_w I x).
Proof. unfold assign_w. pga. Qed.
Lemma pg_assign_d x : gadget (assign_d I x).
Proof. unfold assign_d. pga. Qed.
Hint Resolve pg_mul_limbs pg_mul_native pg_assign_w pg_assign_d : pga.
Lemma pg_reduce_step a d r ad ar l i : gadget (reduce_step I a d r ad ar l i).
Proof. unfold reduce_step. pga. Qed.
Hint Resolve pg_reduce_step : pga.
Lemma pg_reduce a : gadget (reduce I a).
Proof. unfold reduce. pga. Qed.
Hint Resolve pg_reduce : pga.
Lemma pg_cond_reduce a : gadget (conditionally_reduce I a).
Proof. unfold conditionally_reduce. pga. Qed.
Lemma pg_pad_of t : gadget (pad_of I t).
Proof. unfold pad_of. pga. Qed.
Hint Resolve pg_cond_reduce pg_pad_of : pga.
Lemma pg_int_add a b : gadget (int_add I a b).
Proof. unfold int_add. pga. Qed.
Lemma pg_int_sub a b : gadget (int_sub I a b).
Proof. unfold int_sub. pga. Qed.
Lemma pg_int_neg a : gadget (int_neg I a).
Proof. unfold int_neg. pga. Qed.
Lemma pg_int_mul a b : gadget (int_mul I a b).
Proof. unfold int_mul. pga. Qed.
Lemma pg_is_pure_zero a : gadget (is_pure_zero a).
Proof. unfold is_pure_zero. pga. Qed.
Lemma pg_is_pure_w a : gadget (is_pure_w_modulus I a).
Proof. unfold is_pure_w_modulus. pga. Qed.
Hint Resolve pg_int_add pg_int_sub pg_int_neg pg_int_mul pg_is_pure_zero
  pg_is_pure_w : pga.
Lemma pg_is_int_zero a : gadget (is_int_zero I a).
Proof. unfold is_int_zero. pga. Qed.
Hint Resolve pg_is_int_zero : pga.
Lemma pg_is_int_equal a b : gadget (is_int_equal I a b).
Proof. unfold is_int_equal. pga. Qed.
Lemma pg_int_div a b : gadget (int_div I a b).
Proof. unfold int_div. pga. Qed.
Lemma pg_assign_int_constant a : gadget (assign_int_constant I a).
Proof. unfold assign_int_constant. pga. Qed.
Hint Resolve pg_is_int_equal pg_int_div pg_assign_int_constant : pga.
Lemma pg_int_unsafe_invert a : gadget (int_unsafe_invert I a).
Proof. unfold int_unsafe_invert. pga. Qed.
Lemma pg_assert_int_equal a b : gadget (assert_int_equal I a b).
Proof. unfold assert_int_equal. pga. Qed.
Lemma pg_int_square a : gadget (int_square I a).
Proof. unfold int_square. pga. Qed.
Lemma pg_int_mul_small a k : gadget (int_mul_small_constant I a k).
Proof. unfold int_mul_small_constant. pga. Qed.
Lemma pg_bisec_int c a b : gadget (bisec_int I c a b).
Proof. unfold bisec_int. pga. Qed.
End AppI.
Global Hint Resolve pg_native_of pg_nonleading pg_w_lead pg_d_lead
  pg_mul_column pg_mul_carry pg_mul_limbs pg_mul_native pg_assign_w
  pg_assign_d pg_reduce_step pg_reduce pg_cond_reduce pg_pad_of
  pg_int_add pg_int_sub pg_int_neg pg_int_mul pg_is_pure_zero
  pg_is_pure_w pg_is_int_zero pg_is_int_equal pg_int_div
  pg_assign_int_constant pg_int_unsafe_invert pg_assert_int_equal pg_int_square
  pg_int_mul_small pg_bisec_int : pga.

Section AppE.
Context {NM : NMod}.
Variable I : rinfo.
Ltac ap := intros; repeat first [apply pg_bind; [pga|intros ?] | pga].
Lemma pg_assign_constant_point p : gadget (assign_constant_point I p).
Proof. unfold assign_constant_point. ap. Qed.
Lemma pg_curve_sides cb x y : gadget (curve_sides I cb x y).
Proof. unfold curve_sides. ap. Qed.
Hint Resolve pg_curve_sides : pga.
Lemma pg_assign_point cb p : gadget (assign_point I cb p).
Proof. unfold assign_point. ap. Qed.
Lemma pg_assign_non_zero_point cb p : gadget (assign_non_zero_point I cb p).
Proof. unfold assign_non_zero_point. ap. Qed.
Lemma pg_assign_identity : gadget (assign_identity I).
Proof. unfold assign_identity. ap. Qed.
Lemma pg_bisec_point k a b : gadget (bisec_point I k a b).
Proof. unfold bisec_point. ap. Qed.
Lemma pg_bisec_curvature k a b : gadget (bisec_curvature I k a b).
Proof. unfold bisec_curvature. ap. Qed.
Hint Resolve pg_bisec_point pg_bisec_curvature pg_assign_identity : pga.
Lemma pg_bisec_pointc k a b : gadget (bisec_point_with_curvature I k a b).
Proof. unfold bisec_point_with_curvature. ap. Qed.
Lemma pg_lambda_xy l ax ay bx : gadget (lambda_xy I l ax ay bx).
Proof. unfold lambda_xy. ap. Qed.
Hint Resolve pg_lambda_xy : pga.
Lemma pg_lambda_to_point l a b : gadget (lambda_to_point I l a b).
Proof. unfold lambda_to_point. ap. Qed.
Hint Resolve pg_lambda_to_point : pga.
Lemma pg_ecc_add a b : gadget (ecc_add I a b).
Proof. unfold ecc_add. ap. Qed.
Lemma pg_ecc_double ord a : gadget (ecc_double I ord a).
Proof. unfold ecc_double. ap. Qed.
Lemma pg_ecc_assert_equal a b : gadget (ecc_assert_equal I a b).
Proof. unfold ecc_assert_equal. ap. Qed.
Lemma pg_ecc_neg a : gadget (ecc_neg I a).
Proof. unfold ecc_neg. ap. Qed.
Lemma pg_ecc_reduce a : gadget (ecc_reduce I a).
Proof. unfold ecc_reduce. ap. Qed.
Lemma pg_curvature_of x y : gadget (curvature_of I x y).
Proof. unfold curvature_of. ap. Qed.
Hint Resolve pg_ecc_reduce pg_curvature_of : pga.
Lemma pg_ecc_reduce_with_curvature a : gadget (ecc_reduce_with_curvature I a).
Proof. unfold ecc_reduce_with_curvature. ap. Qed.
Lemma pg_to_pointc a : gadget (to_point_with_curvature I a).
Proof. unfold to_point_with_curvature. ap. Qed.
Lemma pg_ecc_encode a : gadget (ecc_encode I a).
Proof. unfold ecc_encode. ap. Qed.
Lemma pg_lambda_nz l a b : gadget (lambda_to_point_non_zero I l a b).
Proof. unfold lambda_to_point_non_zero. ap. Qed.
Hint Resolve pg_lambda_nz : pga.
Lemma pg_ecc_add_unsafe a b : gadget (ecc_add_unsafe I a b).
Proof. unfold ecc_add_unsafe. ap. Qed.
Lemma pg_ecc_double_unsafe a : gadget (ecc_double_unsafe I a).
Proof. unfold ecc_double_unsafe. ap. Qed.
Lemma pg_ecc_neg_nz a : gadget (ecc_neg_non_zero I a).
Proof. unfold ecc_neg_non_zero. ap. Qed.
Lemma pg_ecc_reduce_nz a : gadget (ecc_reduce_non_zero I a).
Proof. unfold ecc_reduce_non_zero. ap. Qed.
Lemma pg_ecc_bisec_nz k a b : gadget (ecc_bisec_non_zero_point I k a b).
Proof. unfold ecc_bisec_non_zero_point. ap. Qed.
Lemma pg_assert_equal_nz a b : gadget (ecc_assert_equal_non_zero I a b).
Proof. unfold ecc_assert_equal_non_zero. ap. Qed.
Lemma pg_downgrade a : gadget (ecc_non_zero_point_downgrade a).
Proof. unfold ecc_non_zero_point_downgrade. ap. Qed.
Lemma pg_bisec_to_nz a b : gadget (ecc_bisec_to_non_zero_point I a b).
Proof. unfold ecc_bisec_to_non_zero_point. ap. Qed.
End AppE.
Global Hint Resolve pg_assign_constant_point pg_curve_sides pg_assign_point
  pg_assign_non_zero_point pg_assign_identity pg_bisec_point pg_bisec_curvature
  pg_bisec_pointc pg_lambda_xy pg_lambda_to_point pg_ecc_add pg_ecc_double
  pg_ecc_assert_equal pg_ecc_neg pg_ecc_reduce pg_curvature_of
  pg_ecc_reduce_with_curvature pg_to_pointc pg_ecc_encode pg_lambda_nz
  pg_ecc_add_unsafe pg_ecc_double_unsafe pg_ecc_neg_nz pg_ecc_reduce_nz
  pg_ecc_bisec_nz pg_assert_equal_nz pg_downgrade pg_bisec_to_nz : pga.

Section AppS.
Context {NM : NMod}.
Lemma pg_to_windows W b : gadget (to_windows W b).
Proof. unfold to_windows. pga. Qed.
Lemma pg_native_step s st i : gadget (native_step s st i).
Proof. unfold native_step. pga. Qed.
Hint Resolve pg_to_windows pg_native_step : pga.
Lemma pg_dec_native W s : gadget (decompose_scalar_native W s).
Proof. unfold decompose_scalar_native. pga. Qed.
Lemma pg_general_step t v st i : gadget (general_step t v st i).
Proof. unfold general_step. pga. Qed.
Hint Resolve pg_general_step : pga.
Lemma pg_general_limb t l : gadget (general_limb t l).
Proof. unfold general_limb. pga. Qed.
Hint Resolve pg_general_limb : pga.
Lemma pg_dec_general I W s : gadget (decompose_scalar_general I W s).
Proof. unfold decompose_scalar_general. pga. Qed.
End AppS.
Global Hint Resolve pg_to_windows pg_native_step pg_dec_native pg_general_step
  pg_general_limb pg_dec_general : pga.

Section AppX.
Context {NM : NMod}.
Variable I : rinfo.
Lemma pg_assign_cache_integer p sc g off : gadget (assign_cache_integer I p sc g off).
Proof. unfold assign_cache_integer. pga. Qed.
Lemma pg_assign_selected_integer p sc g off : gadget (assign_selected_integer I p sc g off).
Proof. unfold assign_selected_integer. apply pg_bind; [apply pg_foldM; intros; pga|intros; pga]. Qed.
End AppX.
#[export] Hint Resolve pg_assign_cache_integer pg_assign_selected_integer : pga.
Section AppY.
Context {NM : NMod}.
Variable I : rinfo.
Lemma pg_assign_cache_point_non_zero p g sc : gadget (assign_cache_point_non_zero I p g sc).
Proof. unfold assign_cache_point_non_zero. pga. Qed.
Lemma pg_assign_selected_point_non_zero p sc g : gadget (assign_selected_point_non_zero I p sc g).
Proof. unfold assign_selected_point_non_zero. pga. Qed.
Lemma pg_assign_cache_point p g sc : gadget (assign_cache_point I p g sc).
Proof. unfold assign_cache_point. pga. Qed.
Lemma pg_assign_selected_point p sc g : gadget (assign_selected_point I p sc g).
Proof. unfold assign_selected_point. pga. Qed.
Lemma pg_pick_candidate cs bs : gadget (pick_candidate_non_zero cs bs).
Proof. unfold pick_candidate_non_zero. pga. Qed.
End AppY.
#[export] Hint Resolve pg_assign_cache_point_non_zero pg_assign_selected_point_non_zero
  pg_assign_cache_point pg_assign_selected_point pg_pick_candidate : pga.

(** The multi-scalar multiplications. *)
Section MsmP.
Context {NM : NMod}.
Lemma pg_window I pick an cands groups wi : (forall g cs bs, gadget (pick g cs bs)) -> gadget (window_body I pick an cands groups wi).
Proof. intros Hp. unfold window_body. pga; try solve [auto]. Qed.
Lemma pg_msm_native I b gen ra rl prefix points scalars : program (msm_native I b gen ra rl prefix points scalars).
Proof. unfold msm_native. apply p_msm; intros; apply p_gadget; pga. Qed.
Lemma pg_msm_general I J b gen ra rl prefix points scalars : program (msm_general I J b gen ra rl prefix points scalars).
Proof. unfold msm_general. apply p_msm; intros; apply p_gadget; pga. Qed.
End MsmP.
