(** Gadgets other than [assign_cache_value] cache nothing: no row of the select chip is added
    with a table entry.  The lemmas follow the append-only ones. *)
From Verif Require Import Msm ParWindows MsmProofs SelectMsm.
From Verif Require Import Prelude FieldZ Circuit Context Spec Logic ModArith Prims BaseChip BaseProofs
  RangeInfo RangeChip IntegerChip InfoProofs IntArith RangeProofs IntInv IntSound EccChip EccProofs ScalarChip ScalarProofs
  SpecSelect SelectProofs.

Section NC.
Context {NM : NMod}.
Definition nc {X} (m : M X) : Prop :=
  forall c x c', wf c -> m c = Ok (x, c') -> wf c' /\ forall r e, cache_row c' r e -> cache_row c r e.
Lemma nc_ret {X} (x : X) : nc (mret x).
Proof. intros c y c' W H. injection H as _ <-. auto. Qed.
Lemma nc_panic {X} : nc (@mpanic X).
Proof. intros c y c' W H. discriminate. Qed.
Lemma nc_assert b : nc (massert b).
Proof. intros c y c' W H. apply massert_inv in H as [_ ->]. auto. Qed.
Lemma nc_opt {X} (o : option X) : nc (mopt o).
Proof. destruct o; [apply nc_ret|apply nc_panic]. Qed.
Lemma nc_nth {X} (l : list X) i : nc (mnth l i).
Proof. apply nc_opt. Qed.
Lemma nc_get : nc mget.
Proof. intros c y c' W H. injection H as _ <-. auto. Qed.
Lemma nc_lift {X} (r : res X) : nc (mlift r).
Proof. destruct r; [apply nc_ret|apply nc_panic]. Qed.
Lemma nc_bind {X Y} (m : M X) (k : X -> M Y) : nc m -> (forall x, nc (k x)) -> nc (mbind m k).
Proof.
  intros Hm Hk c y c'' W H. apply mbind_inv in H as (x & c' & H1 & H2).
  destruct (Hm _ _ _ W H1) as [W1 E1]. destruct (Hk _ _ _ _ W1 H2) as [W2 E2]. auto.
Qed.
Lemma nc_mapM {X Y} (f : X -> M Y) l : (forall x, nc (f x)) -> nc (mapM f l).
Proof.
  intros Hf; induction l as [|x l IH]; simpl; [apply nc_ret|].
  apply nc_bind; [auto|intros]. apply nc_bind; [auto|intros]. apply nc_ret.
Qed.
Lemma nc_foldM {X S} (f : S -> X -> M S) l s : (forall s x, nc (f s x)) -> nc (foldM f s l).
Proof.
  intros Hf; revert s; induction l as [|x l IH]; intros s; simpl; [apply nc_ret|]. apply nc_bind; auto.
Qed.
(** A block of another chip. *)
Lemma fixes_app ws m : get_fix (rev_append ws m) = get_fix (rev ws ++ m).
Proof. rewrite rev_append_rev. reflexivity. Qed.
Lemma get_fix_skip ws m x : (forall y v, In (WFix y v) ws -> y <> x) -> get_fix (ws ++ m) x = get_fix m x.
Proof.
  induction ws as [|u ws IH]; intros H; [reflexivity|]. cbn [app get_fix].
  destruct u as [y v|y v|y]; try (apply IH; intros; eapply H; right; eauto).
  destruct (cell_eqb y x) eqn:E; [|apply IH; intros; eapply H; right; eauto].
  apply cell_eqb_eq in E. exfalso. eapply H; [left; reflexivity|exact E].
Qed.
Lemma block_nc ch k ws ps c c' : ch <> SelectChip -> wf c -> block ch k ws ps c c' ->
  wf c' /\ forall r e, cache_row c' r e -> cache_row c r e.
Proof.
  intros Hc W B. split; [eapply block_wf; eauto|].
  assert (G : forall col r, get_fix (c_mem c') (scell col r) = get_fix (c_mem c) (scell col r)).
  { intros col r. destruct B as [B1 B2 B3 B4]. rewrite B1, fixes_app. apply get_fix_skip. intros y v Hin.
    apply in_rev in Hin. rewrite Forall_forall in B4. specialize (B4 _ Hin). cbn in B4. intros ->. cbn in B4. destruct B4 as [B4 _]. auto. }
  intros r e ((col & v & U) & H1 & H2). unfold fixv in *. rewrite G in H1, H2. split; [|auto].
  exists col, v. change (mkCell SelectChip col r) with (scell col r) in *. rewrite <- G. exact U.
Qed.
Lemma nc_one_line pairs constant muls next : nc (one_line pairs constant muls next).
Proof. intros c r c' W H. apply one_line_inv in H as (_ & _ & B & _). eapply block_nc; eauto. discriminate. Qed.
Lemma nc_one_line_with_last pairs tail constant muls next : nc (one_line_with_last pairs tail constant muls next).
Proof. intros c r c' W H. apply one_line_with_last_inv in H as (_ & _ & B & _). eapply block_nc; eauto. discriminate. Qed.
Lemma nc_assign_selected_value v off g s : nc (assign_selected_value v off g s).
Proof.
  intros c u c' W H. apply sel_inv in H as [_ B]. split; [eapply block_wf; eauto|].
  intros r e (U & H1 & H2). destruct (Nat.eq_dec r (select_off c)) as [->|Ne].
  - exfalso. unfold fixv in H1. rewrite (srow_fix _ _ c c' W B) in H1. cbn in H1. unfold cell_eqb, scell in H1. cbn in H1.
    rewrite !Nat.eqb_refl in H1. cbn in H1. discriminate.
  - assert (G : forall col, get_fix (c_mem c') (scell col r) = get_fix (c_mem c) (scell col r)).
    { intros col. destruct B as [B1 B2 B3 B4]. rewrite B1, fixes_app. apply get_fix_skip. intros y v0 Hin.
      apply in_rev in Hin. cbn in Hin. intros ->. unfold scell in Hin. intuition; try discriminate; congruence. }
    unfold fixv in *. rewrite G in H1, H2. split; [|auto]. destruct U as (col & x & U). exists col, x.
    change (mkCell SelectChip col r) with (scell col r) in *. rewrite <- G. exact U.
Qed.
End NC.
Create HintDb nca discriminated.
Global Hint Constants Opaque : nca.
Global Hint Transparent acond : nca.
Global Hint Resolve nc_ret nc_panic nc_assert nc_opt nc_nth nc_get
  nc_lift nc_one_line nc_one_line_with_last nc_assign_selected_value : nca.
Ltac nca1 :=
  match goal with
  | |- nc (mbind _ _) => apply nc_bind
  | |- nc (mapM _ _) => apply nc_mapM
  | |- nc (foldM _ _ _) => apply nc_foldM
  | |- nc (if ?b then _ else _) => destruct b
  | |- nc (match ?x with _ => _ end) => destruct x
  end.
Ltac nca := repeat (intros; first [solve [auto 1 with nca nocore] | progress cbv beta zeta | nca1]).
Section Base.
Context {NM : NMod}.
Lemma nc_one_line_add p c : nc (one_line_add p c).
Proof. unfold one_line_add. nca. Qed.
Hint Resolve nc_one_line_add : nca.
Lemma nc_swcol e c : nc (sum_with_constant_in_one_line e c).
Proof. unfold sum_with_constant_in_one_line. nca. Qed.
Hint Resolve nc_swcol : nca.
Lemma nc_swc e c : nc (sum_with_constant e c).
Proof. unfold sum_with_constant. nca. Qed.
Hint Resolve nc_swc : nca.
Lemma nc_add a b : nc (add a b).
Proof. unfold add. nca. Qed.
Lemma nc_add_constant a b : nc (add_constant a b).
Proof. unfold add_constant. nca. Qed.
Lemma nc_sub a b : nc (sub a b).
Proof. unfold sub. nca. Qed.
Lemma nc_mul a b : nc (mul a b).
Proof. unfold mul. nca. Qed.
Lemma nc_mul_add_constant a b c : nc (mul_add_constant a b c).
Proof. unfold mul_add_constant. nca. Qed.
Lemma nc_mul_add a b c d e : nc (mul_add a b c d e).
Proof. unfold mul_add. nca. Qed.
Hint Resolve nc_add nc_add_constant nc_sub nc_mul nc_mul_add_constant
  nc_mul_add : nca.
Lemma nc_mul_add_lines f t ls : nc (mul_add_lines f t ls).
Proof.
  revert f t; induction ls as [|[[[a b] c] cc] ls IH]; intros f t; cbn [mul_add_lines]; nca.
Qed.
Hint Resolve nc_mul_add_lines : nca.
Lemma nc_mawnl ls : nc (mul_add_with_next_line ls).
Proof. unfold mul_add_with_next_line. nca. Qed.
Lemma nc_invert_unsafe a : nc (invert_unsafe a).
Proof. unfold invert_unsafe. nca. Qed.
Lemma nc_invert a : nc (invert a).
Proof. unfold invert. nca. Qed.
Hint Resolve nc_mawnl nc_invert_unsafe nc_invert : nca.
Lemma nc_is_zero a : nc (is_zero a).
Proof. unfold is_zero. nca. Qed.
Lemma nc_div_unsafe a b : nc (div_unsafe a b).
Proof. unfold div_unsafe. nca. Qed.
Lemma nc_assign_constant a : nc (assign_constant a).
Proof. unfold assign_constant. nca. Qed.
Lemma nc_assign a : nc (assign a).
Proof. unfold assign. nca. Qed.
Lemma nc_assign_bit a : nc (assign_bit a).
Proof. unfold assign_bit. nca. Qed.
Lemma nc_assert_equal a b : nc (assert_equal a b).
Proof. unfold assert_equal. nca. Qed.
Lemma nc_assert_constant a b : nc (assert_constant a b).
Proof. unfold assert_constant. nca. Qed.
Lemma nc_assert_bit a : nc (assert_bit a).
Proof. unfold assert_bit. nca. Qed.
Hint Resolve nc_is_zero nc_div_unsafe nc_assign_constant nc_assign
  nc_assign_bit nc_assert_equal nc_assert_constant nc_assert_bit : nca.
Lemma nc_and a b : nc (and_ a b).
Proof. unfold and_. nca. Qed.
Lemma nc_not a : nc (not_ a).
Proof. unfold not_. nca. Qed.
Lemma nc_not_and a b : nc (not_and a b).
Proof. unfold not_and. nca. Qed.
Lemma nc_or a b : nc (or_ a b).
Proof. unfold or_. nca. Qed.
Lemma nc_xor a b : nc (xor_ a b).
Proof. unfold xor_. nca. Qed.
Lemma nc_xnor a b : nc (xnor_ a b).
Proof. unfold xnor_. nca. Qed.
Lemma nc_bisec c a b : nc (bisec c a b).
Proof. unfold bisec. nca. Qed.
Lemma nc_bisec_cond c a b : nc (bisec_cond c a b).
Proof. apply nc_bisec. Qed.
Lemma nc_assert_true a : nc (assert_true a).
Proof. unfold assert_true. nca. Qed.
Lemma nc_assert_false a : nc (assert_false a).
Proof. unfold assert_false. nca. Qed.
Lemma nc_try_assert_false a : nc (try_assert_false a).
Proof. unfold try_assert_false. nca. Qed.

End Base.
Global Hint Resolve nc_one_line_add nc_swcol nc_swc nc_add nc_add_constant
  nc_sub nc_mul nc_mul_add_constant
  nc_mul_add nc_mul_add_lines nc_mawnl nc_invert_unsafe nc_invert
  nc_is_zero nc_div_unsafe nc_assign_constant nc_assign
  nc_assign_bit nc_assert_equal nc_assert_constant nc_assert_bit
  nc_and nc_not nc_not_and nc_or nc_xor nc_xnor nc_bisec
  nc_bisec_cond nc_assert_true nc_assert_false nc_try_assert_false : nca.

Section Rng.
Context {NM : NMod}.
Lemma nc_assign_limb bn k b : nc (assign_limb bn k b).
Proof.
  intros c r c' W H. apply assign_limb_inv in H as (_ & [(_ & B)|[(_ & B)|(_ & B)]]);
  (eapply block_nc; eauto; discriminate).
Qed.
Lemma nc_assign_common bn : nc (assign_common bn).
Proof.
  intros c r c' W H. apply assign_common_inv in H as (B & _).
  eapply block_nc; eauto; discriminate.
Qed.
End Rng.
Global Hint Resolve nc_assign_limb nc_assign_common : nca.
Section AppI.
Context {NM : NMod}.
Variable I : rinfo.
Lemma nc_native_of l : nc (native_of I l).
Proof. unfold native_of. nca. Qed.
Lemma nc_nonleading bn : nc (assign_nonleading_limb bn).
Proof. apply nc_assign_limb. Qed.
Lemma nc_w_lead bn : nc (assign_w_ceil_leading_limb I bn).
Proof. apply nc_assign_limb. Qed.
Lemma nc_d_lead bn : nc (assign_d_leading_limb I bn).
Proof. apply nc_assign_limb. Qed.
Hint Resolve nc_native_of nc_nonleading nc_w_lead nc_d_lead : nca.
Lemma nc_mul_column a b d p : nc (mul_column I a b d p).
Proof. unfold mul_column. nca. Qed.
Lemma nc_mul_carry u : nc (mul_carry I u).
Proof. unfold mul_carry. nca. Qed.
Hint Resolve nc_mul_column nc_mul_carry : nca.
Lemma nc_mul_limbs a b d rem : nc (mul_equation_on_limbs I a b d rem).
Proof. unfold mul_equation_on_limbs. nca. Qed.
Lemma nc_mul_native a b d rem : nc (mul_equation_on_native I a b d rem).
Proof. unfold mul_equation_on_native. nca. Qed.
Lemma nc_assign_w x : nc (assign_w I x).
Proof. unfold assign_w. nca. Qed.
Lemma nc_assign_d x : nc (assign_d I x).
Proof. unfold assign_d. nca. Qed.
Hint Resolve nc_mul_limbs nc_mul_native nc_assign_w nc_assign_d : nca.
Lemma nc_reduce_step a d r ad ar l i : nc (reduce_step I a d r ad ar l i).
Proof. unfold reduce_step. nca. Qed.
Hint Resolve nc_reduce_step : nca.
Lemma nc_reduce a : nc (reduce I a).
Proof. unfold reduce. nca. Qed.
Hint Resolve nc_reduce : nca.
Lemma nc_cond_reduce a : nc (conditionally_reduce I a).
Proof. unfold conditionally_reduce. nca. Qed.
Lemma nc_pad_of t : nc (pad_of I t).
Proof. unfold pad_of. nca. Qed.
Hint Resolve nc_cond_reduce nc_pad_of : nca.
Lemma nc_int_add a b : nc (int_add I a b).
Proof. unfold int_add. nca. Qed.
Lemma nc_int_sub a b : nc (int_sub I a b).
Proof. unfold int_sub. nca. Qed.
Lemma nc_int_neg a : nc (int_neg I a).
Proof. unfold int_neg. nca. Qed.
Lemma nc_int_mul a b : nc (int_mul I a b).
Proof. unfold int_mul. nca. Qed.
Lemma nc_is_pure_zero a : nc (is_pure_zero a).
Proof. unfold is_pure_zero. nca. Qed.
Lemma nc_is_pure_w a : nc (is_pure_w_modulus I a).
Proof. unfold is_pure_w_modulus. nca. Qed.
Hint Resolve nc_int_add nc_int_sub nc_int_neg nc_int_mul nc_is_pure_zero
  nc_is_pure_w : nca.
Lemma nc_is_int_zero a : nc (is_int_zero I a).
Proof. unfold is_int_zero. nca. Qed.
Hint Resolve nc_is_int_zero : nca.
Lemma nc_is_int_equal a b : nc (is_int_equal I a b).
Proof. unfold is_int_equal. nca. Qed.
Lemma nc_int_div a b : nc (int_div I a b).
Proof. unfold int_div. nca. Qed.
Lemma nc_assign_int_constant a : nc (assign_int_constant I a).
Proof. unfold assign_int_constant. nca. Qed.
Hint Resolve nc_is_int_equal nc_int_div nc_assign_int_constant : nca.
Lemma nc_int_unsafe_invert a : nc (int_unsafe_invert I a).
Proof. unfold int_unsafe_invert. nca. Qed.
Lemma nc_assert_int_equal a b : nc (assert_int_equal I a b).
Proof. unfold assert_int_equal. nca. Qed.
Lemma nc_int_square a : nc (int_square I a).
Proof. unfold int_square. nca. Qed.
Lemma nc_int_mul_small a k : nc (int_mul_small_constant I a k).
Proof. unfold int_mul_small_constant. nca. Qed.
Lemma nc_bisec_int c a b : nc (bisec_int I c a b).
Proof. unfold bisec_int. nca. Qed.
End AppI.
Global Hint Resolve nc_native_of nc_nonleading nc_w_lead nc_d_lead
  nc_mul_column nc_mul_carry nc_mul_limbs nc_mul_native nc_assign_w
  nc_assign_d nc_reduce_step nc_reduce nc_cond_reduce nc_pad_of
  nc_int_add nc_int_sub nc_int_neg nc_int_mul nc_is_pure_zero
  nc_is_pure_w nc_is_int_zero nc_is_int_equal nc_int_div
  nc_assign_int_constant nc_int_unsafe_invert nc_assert_int_equal nc_int_square
  nc_int_mul_small nc_bisec_int : nca.

Section AppE.
Context {NM : NMod}.
Variable I : rinfo.
Ltac ap := intros; repeat first [apply nc_bind; [nca|intros ?] | nca].
Lemma nc_assign_constant_point p : nc (assign_constant_point I p).
Proof. unfold assign_constant_point. ap. Qed.
Lemma nc_curve_sides cb x y : nc (curve_sides I cb x y).
Proof. unfold curve_sides. ap. Qed.
Hint Resolve nc_curve_sides : nca.
Lemma nc_assign_point cb p : nc (assign_point I cb p).
Proof. unfold assign_point. ap. Qed.
Lemma nc_assign_non_zero_point cb p : nc (assign_non_zero_point I cb p).
Proof. unfold assign_non_zero_point. ap. Qed.
Lemma nc_assign_identity : nc (assign_identity I).
Proof. unfold assign_identity. ap. Qed.
Lemma nc_bisec_point k a b : nc (bisec_point I k a b).
Proof. unfold bisec_point. ap. Qed.
Lemma nc_bisec_curvature k a b : nc (bisec_curvature I k a b).
Proof. unfold bisec_curvature. ap. Qed.
Hint Resolve nc_bisec_point nc_bisec_curvature nc_assign_identity : nca.
Lemma nc_bisec_pointc k a b : nc (bisec_point_with_curvature I k a b).
Proof. unfold bisec_point_with_curvature. ap. Qed.
Lemma nc_lambda_xy l ax ay bx : nc (lambda_xy I l ax ay bx).
Proof. unfold lambda_xy. ap. Qed.
Hint Resolve nc_lambda_xy : nca.
Lemma nc_lambda_to_point l a b : nc (lambda_to_point I l a b).
Proof. unfold lambda_to_point. ap. Qed.
Hint Resolve nc_lambda_to_point : nca.
Lemma nc_ecc_add a b : nc (ecc_add I a b).
Proof. unfold ecc_add. ap. Qed.
Lemma nc_ecc_double ord a : nc (ecc_double I ord a).
Proof. unfold ecc_double. ap. Qed.
Lemma nc_ecc_assert_equal a b : nc (ecc_assert_equal I a b).
Proof. unfold ecc_assert_equal. ap. Qed.
Lemma nc_ecc_neg a : nc (ecc_neg I a).
Proof. unfold ecc_neg. ap. Qed.
Lemma nc_ecc_reduce a : nc (ecc_reduce I a).
Proof. unfold ecc_reduce. ap. Qed.
Lemma nc_curvature_of x y : nc (curvature_of I x y).
Proof. unfold curvature_of. ap. Qed.
Hint Resolve nc_ecc_reduce nc_curvature_of : nca.
Lemma nc_ecc_reduce_with_curvature a : nc (ecc_reduce_with_curvature I a).
Proof. unfold ecc_reduce_with_curvature. ap. Qed.
Lemma nc_to_pointc a : nc (to_point_with_curvature I a).
Proof. unfold to_point_with_curvature. ap. Qed.
Lemma nc_ecc_encode a : nc (ecc_encode I a).
Proof. unfold ecc_encode. ap. Qed.
Lemma nc_lambda_nz l a b : nc (lambda_to_point_non_zero I l a b).
Proof. unfold lambda_to_point_non_zero. ap. Qed.
Hint Resolve nc_lambda_nz : nca.
Lemma nc_ecc_add_unsafe a b : nc (ecc_add_unsafe I a b).
Proof. unfold ecc_add_unsafe. ap. Qed.
Lemma nc_ecc_double_unsafe a : nc (ecc_double_unsafe I a).
Proof. unfold ecc_double_unsafe. ap. Qed.
Lemma nc_ecc_neg_nz a : nc (ecc_neg_non_zero I a).
Proof. unfold ecc_neg_non_zero. ap. Qed.
Lemma nc_ecc_reduce_nz a : nc (ecc_reduce_non_zero I a).
Proof. unfold ecc_reduce_non_zero. ap. Qed.
Lemma nc_ecc_bisec_nz k a b : nc (ecc_bisec_non_zero_point I k a b).
Proof. unfold ecc_bisec_non_zero_point. ap. Qed.
Lemma nc_assert_equal_nz a b : nc (ecc_assert_equal_non_zero I a b).
Proof. unfold ecc_assert_equal_non_zero. ap. Qed.
Lemma nc_downgrade a : nc (ecc_non_zero_point_downgrade a).
Proof. unfold ecc_non_zero_point_downgrade. ap. Qed.
Lemma nc_bisec_to_nz a b : nc (ecc_bisec_to_non_zero_point I a b).
Proof. unfold ecc_bisec_to_non_zero_point. ap. Qed.
End AppE.
Global Hint Resolve nc_assign_constant_point nc_curve_sides nc_assign_point
  nc_assign_non_zero_point nc_assign_identity nc_bisec_point nc_bisec_curvature
  nc_bisec_pointc nc_lambda_xy nc_lambda_to_point nc_ecc_add nc_ecc_double
  nc_ecc_assert_equal nc_ecc_neg nc_ecc_reduce nc_curvature_of
  nc_ecc_reduce_with_curvature nc_to_pointc nc_ecc_encode nc_lambda_nz
  nc_ecc_add_unsafe nc_ecc_double_unsafe nc_ecc_neg_nz nc_ecc_reduce_nz
  nc_ecc_bisec_nz nc_assert_equal_nz nc_downgrade nc_bisec_to_nz : nca.

Section AppS.
Context {NM : NMod}.
Lemma nc_to_windows W b : nc (to_windows W b).
Proof. unfold to_windows. nca. Qed.
Lemma nc_native_step s st i : nc (native_step s st i).
Proof. unfold native_step. nca. Qed.
Hint Resolve nc_to_windows nc_native_step : nca.
Lemma nc_dec_native W s : nc (decompose_scalar_native W s).
Proof. unfold decompose_scalar_native. nca. Qed.
Lemma nc_general_step t v st i : nc (general_step t v st i).
Proof. unfold general_step. nca. Qed.
Hint Resolve nc_general_step : nca.
Lemma nc_general_limb t l : nc (general_limb t l).
Proof. unfold general_limb. nca. Qed.
Hint Resolve nc_general_limb : nca.
Lemma nc_dec_general I W s : nc (decompose_scalar_general I W s).
Proof. unfold decompose_scalar_general. nca. Qed.
End AppS.
Global Hint Resolve nc_to_windows nc_native_step nc_dec_native nc_general_step
  nc_general_limb nc_dec_general : nca.

Section AppM.
Context {NM : NMod}.
Variable I : rinfo.
Lemma nc_bisec_pairs b : forall n cs, (length cs <= n)%nat -> nc (bisec_pairs I b cs).
Proof.
  induction n as [|n IH]; intros [|a [|b0 cs]] H; cbn [bisec_pairs]; try solve [nca]; cbn [length] in H; try lia.
  apply nc_bind; [nca|intros p]. apply nc_bind; [apply IH; lia|intros ps]. nca.
Qed.
Lemma nc_bisec_candidate cs bits : nc (bisec_candidate_non_zero I cs bits).
Proof.
  unfold bisec_candidate_non_zero. apply nc_bind; [|intros; nca].
  apply nc_foldM. intros. eapply nc_bisec_pairs. reflexivity.
Qed.
Lemma nc_assign_selected_integer p sc g off : nc (assign_selected_integer I p sc g off).
Proof. unfold assign_selected_integer. nca. Qed.
Hint Resolve nc_assign_selected_integer : nca.
Lemma nc_assign_selected_point_non_zero p sc g : nc (assign_selected_point_non_zero I p sc g).
Proof. unfold assign_selected_point_non_zero. nca. Qed.
Lemma nc_assign_selected_point p sc g : nc (assign_selected_point I p sc g).
Proof. unfold assign_selected_point. nca. Qed.
Lemma nc_pick_candidate cs bs : nc (pick_candidate_non_zero cs bs).
Proof. unfold pick_candidate_non_zero. nca. Qed.
End AppM.
Global Hint Resolve nc_bisec_candidate nc_assign_selected_integer nc_assign_selected_point_non_zero nc_assign_selected_point nc_pick_candidate : nca.
