(** Without a select chip nothing is recorded for it (C56): the rules and all gadgets of the base, range, integer, point and scalar chips.  The lemmas
    follow those of Progs.v. *)
From Verif Require Import Prelude FieldZ Circuit Context Spec Logic Prims BaseChip RangeInfo RangeChip IntegerChip EccChip ScalarChip Msm
  RangeProofs SelectProofs Heights SpecNoSelect.

Section NS.
Context {NM : NMod}.
Notation ns := leaves_select.
Lemma ns_ret {X} (x : X) : ns (mret x). Proof. intros c y c' E. injection E as <- <-. reflexivity. Qed.
Lemma ns_panic {X} : ns (@mpanic X). Proof. intros c y c' E. discriminate. Qed.
Lemma ns_assert b : ns (massert b). Proof. intros c y c' E. apply massert_inv in E as [_ ->]. reflexivity. Qed.
Lemma ns_opt {X} (o : option X) : ns (mopt o). Proof. destruct o; [apply ns_ret|apply ns_panic]. Qed.
Lemma ns_nth {X} (l : list X) i : ns (mnth l i). Proof. apply ns_opt. Qed.
Lemma ns_bind {X Y} (m : M X) (k : X -> M Y) : ns m -> (forall x, ns (k x)) -> ns (mbind m k).
Proof. intros H1 H2 c y c' E. apply mbind_inv in E as (x & c1 & E1 & E2). rewrite (H2 _ _ _ _ E2). exact (H1 _ _ _ E1). Qed.
Lemma ns_mapM {X Y} (f : X -> M Y) l : (forall x, ns (f x)) -> ns (mapM f l).
Proof.
  intros Hf; induction l as [|x l IH]; simpl; [apply ns_ret|].
  apply ns_bind; [auto|intros]. apply ns_bind; [auto|intros]. apply ns_ret.
Qed.
Lemma ns_foldM {X S} (f : S -> X -> M S) l s : (forall s x, ns (f s x)) -> ns (foldM f s l).
Proof.
  intros Hf; revert s; induction l as [|x l IH]; intros s; simpl; [apply ns_ret|]. apply ns_bind; auto.
Qed.
Lemma ns_ubind {X Y} (m : M (uresult X)) (k : X -> M (uresult Y)) : ns m -> (forall x, ns (k x)) -> ns (ubind m k).
Proof. intros Hm Hk. apply ns_bind; [auto|]. intros [x|e]; [auto|apply ns_ret]. Qed.
Lemma ns_ufoldM {X S} (f : S -> X -> M (uresult S)) l s : (forall s x, ns (f s x)) -> ns (ufoldM f s l).
Proof.
  intros Hf; revert s; induction l as [|x l IH]; intros s; simpl; [apply ns_ret|]. apply ns_ubind; auto.
Qed.
Lemma ns_one_line pairs constant muls next : ns (one_line pairs constant muls next).
Proof. intros c r c' H. apply one_line_h in H. tauto.
Qed.
Lemma ns_one_line_with_last pairs tail constant muls next : ns (one_line_with_last pairs tail constant muls next).
Proof. intros c r c' H. apply one_line_with_last_h in H. tauto.
Qed.
Lemma ns_assign_common bn : ns (assign_common bn).
Proof. intros c r c' H. cbv [assign_common assign_one_line_range_value mbind mget massert mnth mopt nth_error mret
    bump_range_h do_writes add_range_off COMMON_RANGE_BITS Z.leb Z.compare Pos.compare Pos.compare_cont c_mem c_perms base_off
    range_off select_off base_h range_h select_h] in H. destruct c as [mm pp bo ro so bh rh sh]. injection H as _ <-. reflexivity.
Qed.
Lemma ns_assign_limb bn k b : ns (assign_limb bn k b).
Proof. intros c r c' H. unfold assign_limb in H. apply mbind_inv in H as (c0 & c1 & H1 & H). injection H1 as <- <-.
  apply mbind_inv in H as ([a kk] & c1 & H1 & H). pose proof (assign_range_value_h _ _ _ _ _ _ _ _ H1) as (h1 & h2 & h3 & h4).
  cbn [fst snd] in H. cbv [mbind add_range_off mret] in H. injection H as _ <-. exact h2.
Qed.
Lemma ns_par_windows {X} (f : nat -> M (uresult X)) windows : (forall i, ns (f i)) -> ns (par_windows f windows).
Proof. intros Hf c r c' E. unfold par_windows in E.
  set (c0 := clone_with_offset (c_mem c) (mkOff 0 0 0) c) in *.
  assert (S0 : select_h c0 = select_h c) by reflexivity.
  destruct (f O c0) as [[[x0|e] c0']|] eqn:E0; [|injection E as <- <-; reflexivity|discriminate].
  apply Hf in E0. set (c1 := merge (c_mem c0') c c0') in *.
  assert (S1 : select_h c1 = select_h c) by (cbn; lia).
  assert (R : forall is m r m', run_clones f c1 (off_sub (offset_of c0') (offset_of c0)) is m = Ok (r, m') ->
    match r with UOk xs => Forall (fun x => select_h (snd x) = select_h c) xs | UErr _ => True end).
  { intros is. induction is as [|i is IH]; intros m r' m' Q; cbn [run_clones] in Q; [injection Q as <- <-; constructor|].
    destruct (f i _) as [[[x|e] ci]|] eqn:Ei; [|injection Q as <- <-; exact Logic.I|discriminate].
    destruct (off_eqb _ _); [|discriminate]. destruct (run_clones f c1 _ is (c_mem ci)) as [[[xs|e] m2]|] eqn:Er; [| |discriminate].
    - injection Q as <- <-. constructor; [|exact (IH _ _ _ Er)]. cbn [snd]. rewrite (Hf _ _ _ _ Ei). exact S1.
    - injection Q as <- <-. exact Logic.I. }
  destruct (run_clones f c1 _ _ _) as [[[xs|e] m]|] eqn:Er; [|injection E as <- <-; exact S1|discriminate].
  injection E as <- <-. apply R in Er. cbn [apply_offset_diff select_h].
  assert (K : forall l d, Forall (fun x : X * ctx => select_h (snd x) = select_h c) l -> select_h d = select_h c ->
    select_h (fold_left (fun c x => merge m c (snd x)) l d) = select_h c).
  { induction l as [|x l IH]; intros d F Hd; cbn [fold_left]; [exact Hd|]. inversion F; subst. apply IH; [assumption|]. cbn. lia. }
  apply K; [exact Er|exact S1].
Qed.
End NS.
Notation ns := leaves_select.
Create HintDb nsa discriminated.
Global Hint Constants Opaque : nsa.
Global Hint Transparent acond : nsa.
Global Hint Resolve ns_ret ns_panic ns_assert ns_opt ns_nth
  ns_one_line ns_one_line_with_last ns_assign_common ns_assign_limb : nsa.
Ltac nsa1 :=
  match goal with
  | |- leaves_select (mbind _ _) => apply ns_bind
  | |- leaves_select (ubind _ _) => apply ns_ubind
  | |- leaves_select (mapM _ _) => apply ns_mapM
  | |- leaves_select (foldM _ _ _) => apply ns_foldM
  | |- leaves_select (ufoldM _ _ _) => apply ns_ufoldM
  | |- leaves_select (if ?b then _ else _) => destruct b
  | |- leaves_select (match ?x with _ => _ end) => destruct x
  end.
Ltac nsa := repeat (intros; first [solve [auto 1 with nsa nocore] | progress cbv beta zeta | nsa1]).
Section Base.
Context {NM : NMod}.
Lemma ns_one_line_add p c : ns (one_line_add p c).
Proof. unfold one_line_add. nsa. Qed.
Hint Resolve ns_one_line_add : nsa.
Lemma ns_swcol e c : ns (sum_with_constant_in_one_line e c).
Proof. unfold sum_with_constant_in_one_line. nsa. Qed.
Hint Resolve ns_swcol : nsa.
Lemma ns_swc e c : ns (sum_with_constant e c).
Proof. unfold sum_with_constant. nsa. Qed.
Hint Resolve ns_swc : nsa.
Lemma ns_add a b : ns (add a b).
Proof. unfold add. nsa. Qed.
Lemma ns_add_constant a b : ns (add_constant a b).
Proof. unfold add_constant. nsa. Qed.
Lemma ns_sub a b : ns (sub a b).
Proof. unfold sub. nsa. Qed.
Lemma ns_mul a b : ns (mul a b).
Proof. unfold mul. nsa. Qed.
Lemma ns_mul_add_constant a b c : ns (mul_add_constant a b c).
Proof. unfold mul_add_constant. nsa. Qed.
Lemma ns_mul_add a b c d e : ns (mul_add a b c d e).
Proof. unfold mul_add. nsa. Qed.
Hint Resolve ns_add ns_add_constant ns_sub ns_mul ns_mul_add_constant
  ns_mul_add : nsa.
Lemma ns_mul_add_lines f t ls : ns (mul_add_lines f t ls).
Proof.
  revert f t; induction ls as [|[[[a b] c] cc] ls IH]; intros f t; cbn [mul_add_lines]; nsa.
Qed.
Hint Resolve ns_mul_add_lines : nsa.
Lemma ns_mawnl ls : ns (mul_add_with_next_line ls).
Proof. unfold mul_add_with_next_line. nsa. Qed.
Lemma ns_invert_unsafe a : ns (invert_unsafe a).
Proof. unfold invert_unsafe. nsa. Qed.
Lemma ns_invert a : ns (invert a).
Proof. unfold invert. nsa. Qed.
Hint Resolve ns_mawnl ns_invert_unsafe ns_invert : nsa.
Lemma ns_is_zero a : ns (is_zero a).
Proof. unfold is_zero. nsa. Qed.
Lemma ns_div_unsafe a b : ns (div_unsafe a b).
Proof. unfold div_unsafe. nsa. Qed.
Lemma ns_assign_constant a : ns (assign_constant a).
Proof. unfold assign_constant. nsa. Qed.
Lemma ns_assign a : ns (assign a).
Proof. unfold assign. nsa. Qed.
Lemma ns_assign_bit a : ns (assign_bit a).
Proof. unfold assign_bit. nsa. Qed.
Lemma ns_assert_equal a b : ns (assert_equal a b).
Proof. unfold assert_equal. nsa. Qed.
Lemma ns_assert_constant a b : ns (assert_constant a b).
Proof. unfold assert_constant. nsa. Qed.
Lemma ns_assert_bit a : ns (assert_bit a).
Proof. unfold assert_bit. nsa. Qed.
Hint Resolve ns_is_zero ns_div_unsafe ns_assign_constant ns_assign
  ns_assign_bit ns_assert_equal ns_assert_constant ns_assert_bit : nsa.
Lemma ns_and a b : ns (and_ a b).
Proof. unfold and_. nsa. Qed.
Lemma ns_not a : ns (not_ a).
Proof. unfold not_. nsa. Qed.
Lemma ns_not_and a b : ns (not_and a b).
Proof. unfold not_and. nsa. Qed.
Lemma ns_or a b : ns (or_ a b).
Proof. unfold or_. nsa. Qed.
Lemma ns_xor a b : ns (xor_ a b).
Proof. unfold xor_. nsa. Qed.
Lemma ns_xnor a b : ns (xnor_ a b).
Proof. unfold xnor_. nsa. Qed.
Lemma ns_bisec c a b : ns (bisec c a b).
Proof. unfold bisec. nsa. Qed.
Lemma ns_bisec_cond c a b : ns (bisec_cond c a b).
Proof. apply ns_bisec. Qed.
Lemma ns_assert_true a : ns (assert_true a).
Proof. unfold assert_true. nsa. Qed.
Lemma ns_assert_false a : ns (assert_false a).
Proof. unfold assert_false. nsa. Qed.
Lemma ns_try_assert_false a : ns (try_assert_false a).
Proof. unfold try_assert_false. nsa. Qed.

End Base.
Global Hint Resolve ns_one_line_add ns_swcol ns_swc ns_add ns_add_constant
  ns_sub ns_mul ns_mul_add_constant
  ns_mul_add ns_mul_add_lines ns_mawnl ns_invert_unsafe ns_invert
  ns_is_zero ns_div_unsafe ns_assign_constant ns_assign
  ns_assign_bit ns_assert_equal ns_assert_constant ns_assert_bit
  ns_and ns_not ns_not_and ns_or ns_xor ns_xnor ns_bisec
  ns_bisec_cond ns_assert_true ns_assert_false ns_try_assert_false : nsa.

Section AppI.
Context {NM : NMod}.
Variable I : rinfo.
Lemma ns_native_of l : ns (native_of I l).
Proof. unfold native_of. nsa. Qed.
Lemma ns_nonleading bn : ns (assign_nonleading_limb bn).
Proof. apply ns_assign_limb. Qed.
Lemma ns_w_lead bn : ns (assign_w_ceil_leading_limb I bn).
Proof. apply ns_assign_limb. Qed.
Lemma ns_d_lead bn : ns (assign_d_leading_limb I bn).
Proof. apply ns_assign_limb. Qed.
Hint Resolve ns_native_of ns_nonleading ns_w_lead ns_d_lead : nsa.
Lemma ns_mul_column a b d p : ns (mul_column I a b d p).
Proof. unfold mul_column. nsa. Qed.
Lemma ns_mul_carry u : ns (mul_carry I u).
Proof. unfold mul_carry. nsa. Qed.
Hint Resolve ns_mul_column ns_mul_carry : nsa.
Lemma ns_mul_limbs a b d rem : ns (mul_equation_on_limbs I a b d rem).
Proof. unfold mul_equation_on_limbs. nsa. Qed.
Lemma ns_mul_native a b d rem : ns (mul_equation_on_native I a b d rem).
Proof. unfold mul_equation_on_native. nsa. Qed.
Lemma ns_assign_w x : ns (assign_w I x).
Proof. unfold assign_w. nsa. Qed.
Lemma ns_assign_d x : ns (assign_d I x).
Proof. unfold assign_d. nsa. Qed.
Hint Resolve ns_mul_limbs ns_mul_native ns_assign_w ns_assign_d : nsa.
Lemma ns_reduce_step a d r ad ar l i : ns (reduce_step I a d r ad ar l i).
Proof. unfold reduce_step. nsa. Qed.
Hint Resolve ns_reduce_step : nsa.
Lemma ns_reduce a : ns (reduce I a).
Proof. unfold reduce. nsa. Qed.
Hint Resolve ns_reduce : nsa.
Lemma ns_cond_reduce a : ns (conditionally_reduce I a).
Proof. unfold conditionally_reduce. nsa. Qed.
Lemma ns_pad_of t : ns (pad_of I t).
Proof. unfold pad_of. nsa. Qed.
Hint Resolve ns_cond_reduce ns_pad_of : nsa.
Lemma ns_int_add a b : ns (int_add I a b).
Proof. unfold int_add. nsa. Qed.
Lemma ns_int_sub a b : ns (int_sub I a b).
Proof. unfold int_sub. nsa. Qed.
Lemma ns_int_neg a : ns (int_neg I a).
Proof. unfold int_neg. nsa. Qed.
Lemma ns_int_mul a b : ns (int_mul I a b).
Proof. unfold int_mul. nsa. Qed.
Lemma ns_is_pure_zero a : ns (is_pure_zero a).
Proof. unfold is_pure_zero. nsa. Qed.
Lemma ns_is_pure_w a : ns (is_pure_w_modulus I a).
Proof. unfold is_pure_w_modulus. nsa. Qed.
Hint Resolve ns_int_add ns_int_sub ns_int_neg ns_int_mul ns_is_pure_zero
  ns_is_pure_w : nsa.
Lemma ns_is_int_zero a : ns (is_int_zero I a).
Proof. unfold is_int_zero. nsa. Qed.
Hint Resolve ns_is_int_zero : nsa.
Lemma ns_is_int_equal a b : ns (is_int_equal I a b).
Proof. unfold is_int_equal. nsa. Qed.
Lemma ns_int_div a b : ns (int_div I a b).
Proof. unfold int_div. nsa. Qed.
Lemma ns_assign_int_constant a : ns (assign_int_constant I a).
Proof. unfold assign_int_constant. nsa. Qed.
Hint Resolve ns_is_int_equal ns_int_div ns_assign_int_constant : nsa.
Lemma ns_int_unsafe_invert a : ns (int_unsafe_invert I a).
Proof. unfold int_unsafe_invert. nsa. Qed.
Lemma ns_assert_int_equal a b : ns (assert_int_equal I a b).
Proof. unfold assert_int_equal. nsa. Qed.
Lemma ns_int_square a : ns (int_square I a).
Proof. unfold int_square. nsa. Qed.
Lemma ns_int_mul_small a k : ns (int_mul_small_constant I a k).
Proof. unfold int_mul_small_constant. nsa. Qed.
Lemma ns_bisec_int c a b : ns (bisec_int I c a b).
Proof. unfold bisec_int. nsa. Qed.
End AppI.
Global Hint Resolve ns_native_of ns_nonleading ns_w_lead ns_d_lead
  ns_mul_column ns_mul_carry ns_mul_limbs ns_mul_native ns_assign_w
  ns_assign_d ns_reduce_step ns_reduce ns_cond_reduce ns_pad_of
  ns_int_add ns_int_sub ns_int_neg ns_int_mul ns_is_pure_zero
  ns_is_pure_w ns_is_int_zero ns_is_int_equal ns_int_div
  ns_assign_int_constant ns_int_unsafe_invert ns_assert_int_equal ns_int_square
  ns_int_mul_small ns_bisec_int : nsa.

Section AppE.
Context {NM : NMod}.
Variable I : rinfo.
Ltac ap := intros; repeat first [apply ns_bind; [nsa|intros ?] | nsa].
Lemma ns_assign_constant_point p : ns (assign_constant_point I p).
Proof. unfold assign_constant_point. ap. Qed.
Lemma ns_curve_sides cb x y : ns (curve_sides I cb x y).
Proof. unfold curve_sides. ap. Qed.
Hint Resolve ns_curve_sides : nsa.
Lemma ns_assign_point cb p : ns (assign_point I cb p).
Proof. unfold assign_point. ap. Qed.
Lemma ns_assign_non_zero_point cb p : ns (assign_non_zero_point I cb p).
Proof. unfold assign_non_zero_point. ap. Qed.
Lemma ns_assign_identity : ns (assign_identity I).
Proof. unfold assign_identity. ap. Qed.
Lemma ns_bisec_point k a b : ns (bisec_point I k a b).
Proof. unfold bisec_point. ap. Qed.
Lemma ns_bisec_curvature k a b : ns (bisec_curvature I k a b).
Proof. unfold bisec_curvature. ap. Qed.
Hint Resolve ns_bisec_point ns_bisec_curvature ns_assign_identity : nsa.
Lemma ns_bisec_pointc k a b : ns (bisec_point_with_curvature I k a b).
Proof. unfold bisec_point_with_curvature. ap. Qed.
Lemma ns_lambda_xy l ax ay bx : ns (lambda_xy I l ax ay bx).
Proof. unfold lambda_xy. ap. Qed.
Hint Resolve ns_lambda_xy : nsa.
Lemma ns_lambda_to_point l a b : ns (lambda_to_point I l a b).
Proof. unfold lambda_to_point. ap. Qed.
Hint Resolve ns_lambda_to_point : nsa.
Lemma ns_ecc_add a b : ns (ecc_add I a b).
Proof. unfold ecc_add. ap. Qed.
Lemma ns_ecc_double ord a : ns (ecc_double I ord a).
Proof. unfold ecc_double. ap. Qed.
Lemma ns_ecc_assert_equal a b : ns (ecc_assert_equal I a b).
Proof. unfold ecc_assert_equal. ap. Qed.
Lemma ns_ecc_neg a : ns (ecc_neg I a).
Proof. unfold ecc_neg. ap. Qed.
Lemma ns_ecc_reduce a : ns (ecc_reduce I a).
Proof. unfold ecc_reduce. ap. Qed.
Lemma ns_curvature_of x y : ns (curvature_of I x y).
Proof. unfold curvature_of. ap. Qed.
Hint Resolve ns_ecc_reduce ns_curvature_of : nsa.
Lemma ns_ecc_reduce_with_curvature a : ns (ecc_reduce_with_curvature I a).
Proof. unfold ecc_reduce_with_curvature. ap. Qed.
Lemma ns_to_pointc a : ns (to_point_with_curvature I a).
Proof. unfold to_point_with_curvature. ap. Qed.
Lemma ns_ecc_encode a : ns (ecc_encode I a).
Proof. unfold ecc_encode. ap. Qed.
Lemma ns_lambda_nz l a b : ns (lambda_to_point_non_zero I l a b).
Proof. unfold lambda_to_point_non_zero. ap. Qed.
Hint Resolve ns_lambda_nz : nsa.
Lemma ns_ecc_add_unsafe a b : ns (ecc_add_unsafe I a b).
Proof. unfold ecc_add_unsafe. ap. Qed.
Lemma ns_ecc_double_unsafe a : ns (ecc_double_unsafe I a).
Proof. unfold ecc_double_unsafe. ap. Qed.
Lemma ns_ecc_neg_nz a : ns (ecc_neg_non_zero I a).
Proof. unfold ecc_neg_non_zero. ap. Qed.
Lemma ns_ecc_reduce_nz a : ns (ecc_reduce_non_zero I a).
Proof. unfold ecc_reduce_non_zero. ap. Qed.
Lemma ns_ecc_bisec_nz k a b : ns (ecc_bisec_non_zero_point I k a b).
Proof. unfold ecc_bisec_non_zero_point. ap. Qed.
Lemma ns_assert_equal_nz a b : ns (ecc_assert_equal_non_zero I a b).
Proof. unfold ecc_assert_equal_non_zero. ap. Qed.
Lemma ns_downgrade a : ns (ecc_non_zero_point_downgrade a).
Proof. unfold ecc_non_zero_point_downgrade. ap. Qed.
Lemma ns_bisec_to_nz a b : ns (ecc_bisec_to_non_zero_point I a b).
Proof. unfold ecc_bisec_to_non_zero_point. ap. Qed.
End AppE.
Global Hint Resolve ns_assign_constant_point ns_curve_sides ns_assign_point
  ns_assign_non_zero_point ns_assign_identity ns_bisec_point ns_bisec_curvature
  ns_bisec_pointc ns_lambda_xy ns_lambda_to_point ns_ecc_add ns_ecc_double
  ns_ecc_assert_equal ns_ecc_neg ns_ecc_reduce ns_curvature_of
  ns_ecc_reduce_with_curvature ns_to_pointc ns_ecc_encode ns_lambda_nz
  ns_ecc_add_unsafe ns_ecc_double_unsafe ns_ecc_neg_nz ns_ecc_reduce_nz
  ns_ecc_bisec_nz ns_assert_equal_nz ns_downgrade ns_bisec_to_nz : nsa.

Section AppS.
Context {NM : NMod}.
Lemma ns_to_windows W b : ns (to_windows W b).
Proof. unfold to_windows. nsa. Qed.
Lemma ns_native_step s st i : ns (native_step s st i).
Proof. unfold native_step. nsa. Qed.
Hint Resolve ns_to_windows ns_native_step : nsa.
Lemma ns_dec_native W s : ns (decompose_scalar_native W s).
Proof. unfold decompose_scalar_native. nsa. Qed.
Lemma ns_general_step t v st i : ns (general_step t v st i).
Proof. unfold general_step. nsa. Qed.
Hint Resolve ns_general_step : nsa.
Lemma ns_general_limb t l : ns (general_limb t l).
Proof. unfold general_limb. nsa. Qed.
Hint Resolve ns_general_limb : nsa.
Lemma ns_dec_general I W s : ns (decompose_scalar_general I W s).
Proof. unfold decompose_scalar_general. nsa. Qed.
End AppS.
Global Hint Resolve ns_to_windows ns_native_step ns_dec_native ns_general_step
  ns_general_limb ns_dec_general : nsa.


Section NsMsm.
Context {NM : NMod}.
Variable I : rinfo.
Variable cv_b : Z.
Lemma ns_bisec_pairs b : forall n cs, (length cs <= n)%nat -> ns (bisec_pairs I b cs).
Proof.
  induction n as [|n IH]; intros [|x [|y cs]] Hl; cbn [bisec_pairs]; cbn [length] in Hl; try lia; try solve [nsa].
  apply ns_bind; [nsa|intros]. apply ns_bind; [apply IH; lia|intros; nsa].
Qed.
Lemma ns_bisec_candidate cs bits : ns (bisec_candidate_non_zero I cs bits).
Proof.
  unfold bisec_candidate_non_zero. apply ns_bind; [|intros; nsa]. apply ns_foldM. intros s x. apply (ns_bisec_pairs x (length s)). lia.
Qed.
Lemma ns_group_candidates cache init chunk : (forall i p, ns (cache i p)) -> ns (group_candidates I cache init chunk).
Proof. intros H. unfold group_candidates. nsa; auto. Qed.
Lemma ns_all_candidates cache l ln gs : (forall g i p, ns (cache g i p)) -> ns (all_candidates I cache l ln gs).
Proof. intros H. unfold all_candidates. apply ns_ufoldM. intros. apply ns_ubind; [apply ns_group_candidates; auto|intros; nsa]. Qed.
Lemma ns_window_body pick an cands groups wi : (forall g cs bs, ns (pick g cs bs)) -> ns (window_body I pick an cands groups wi).
Proof. intros H. unfold window_body. nsa; auto. Qed.
Lemma ns_msm_batch {S} (dec : S -> M (list (list acond))) best points scalars ra rl :
  (forall s, ns (dec s)) ->
  ns (msm_batch I cv_b dec (fun _ => bisec_candidate_non_zero I) (fun _ _ _ => mret tt) best points scalars ra rl).
Proof.
  intros Hd. unfold msm_batch. do 7 (apply ns_bind; [nsa|intros]). cbv zeta. apply ns_bind; [nsa|intros].
  apply ns_ubind; [apply ns_all_candidates; intros; nsa|intros]. apply ns_bind; [apply ns_mapM; auto|intros]. apply ns_bind; [nsa|intros].
  apply ns_ubind; [|intros; nsa]. apply ns_par_windows. intros i. apply ns_window_body. intros. apply ns_bisec_candidate.
Qed.
Lemma ns_msm {Sc} (dec : Sc -> M (list (list acond))) bis zero gen ra rl points scalars :
  (forall s, ns (dec s)) -> (forall c s t, ns (bis c s t)) -> ns zero -> ns (msm I cv_b dec bis zero gen ra rl None points scalars).
Proof.
  intros Hd Hb Hz. unfold msm, msm_unsafe, msm_batch_on_group_non_zero_without_select_chip.
  apply ns_bind; [|intros [[x|e] o]; unfold unwrap_result; cbn [fst]; nsa]. apply ns_bind; [nsa|intros]. apply ns_bind; [exact Hz|intros].
  apply ns_bind; [apply ns_mapM; intros; apply ns_bind; [apply Hb|intros; nsa]|intros]. apply ns_bind; [apply ns_msm_batch; exact Hd|intros; nsa].
Qed.
End NsMsm.
Section NsPick.
Context {NM : NMod}.
Lemma ns_bisec_pairs' I b cs : ns (bisec_pairs I b cs).
Proof. apply (ns_bisec_pairs I b (length cs)). reflexivity. Qed.
Lemma ns_pick_candidate cs bs : ns (pick_candidate_non_zero cs bs).
Proof. unfold pick_candidate_non_zero. nsa. Qed.
End NsPick.
#[export] Hint Resolve ns_bisec_pairs' ns_bisec_candidate ns_pick_candidate : nsa.
Section NsInst.
Context {NM : NMod}.
Lemma ns_msm_native I b gen ra rl points scalars : ns (msm_native I b gen ra rl None points scalars).
Proof. unfold msm_native. apply ns_msm; intros; nsa. Qed.
Lemma ns_msm_general I J b gen ra rl points scalars : ns (msm_general I J b gen ra rl None points scalars).
Proof. unfold msm_general. apply ns_msm; intros; nsa. Qed.
End NsInst.
