(** Proofs of C55. *)
From Verif Require Import Prelude FieldZ Circuit Context Spec Logic Prims BaseChip RangeInfo RangeChip IntegerChip EccChip ScalarChip Msm
  Moduli Fields PairingConsts Fq12Chip PairingChip KeccakChip Synth SpecHeights SpecRecorder Progs ProgsMore SynthMain Halo2 Configure ConfigProofs ConfigMain SpecHandles Handles HandGadgets HandMore.
Ltac hd := first [hrel | intros; hoa].
Lemma live_mono_all {X} `{Handles X} (c c' : ctx) (x : X) : (forall y, live c y -> live c' y) -> all_live c x -> all_live c' x.
Proof. intros M. apply Forall_impl. exact M. Qed.
Lemma all_live_pair {X Y} `{Handles X} `{Handles Y} c (x : X) (y : Y) : all_live c (x, y) <-> all_live c x /\ all_live c y.
Proof. apply Forall_app. Qed.
Lemma all_live_cons {X} `{Handles X} c (x : X) l : all_live c (x :: l) <-> all_live c x /\ all_live c l.
Proof. apply Forall_app. Qed.
Lemma cells_pair {X Y} `{Handles X} `{Handles Y} (x : X) (y : Y) : cells_of (x, y) = cells_of x ++ cells_of y.
Proof. reflexivity. Qed.
Lemma cells_cons {X} `{Handles X} (x : X) l : cells_of (x :: l) = cells_of x ++ cells_of l.
Proof. reflexivity. Qed.
Lemma disciplined_bind {X Y Z} `{Handles X} `{Handles Y} `{Handles Z} (a : X) (m : M Y) (k : Y -> M Z) :
  disciplined a m -> (forall y, disciplined (a, y) (k y)) -> disciplined a (mbind m k).
Proof.
  intros Hm Hk c z c' La Cl E. apply mbind_inv in E as (y & c1 & E1 & E2). destruct (Hm _ _ _ La Cl E1) as (Cl1 & G1 & Ly).
  destruct (Hk y c1 z c') as (Cl2 & G2 & Lz); [apply all_live_pair; split; [eapply live_mono_all; eauto|exact Ly]|exact Cl1|exact E2|].
  split; [exact Cl2|]. split; [auto|exact Lz].
Qed.
Lemma disciplined_wk {X X' Y} `{Handles X} `{Handles X'} `{Handles Y} (a : X) (b : X') (m : M Y) :
  incl (cells_of b) (cells_of a) -> disciplined b m -> disciplined a m.
Proof.
  intros I Hm c y c' La. apply Hm. unfold all_live in *. rewrite Forall_forall in *. auto.
Qed.
Lemma disciplined_ret {X Y} `{Handles X} `{Handles Y} (a : X) (y : Y) : incl (cells_of y) (cells_of a) -> disciplined a (mret y).
Proof.
  intros I c z c' La Cl E. injection E as <- <-. split; [exact Cl|]. split; [auto|]. unfold all_live in *. rewrite Forall_forall in *. auto.
Qed.
Lemma disciplined_mapM {X Y Z} `{Handles X} `{Handles Y} `{Handles Z} (a : X) (f : Y -> M Z) l :
  (forall y, disciplined (a, y) (f y)) -> disciplined (a, l) (mapM f l).
Proof.
  intros Hf. induction l as [|y l IH]; cbn [mapM].
  - apply disciplined_ret. intros z [].
  - apply disciplined_bind; [refine (disciplined_wk _ (a, y) _ _ (Hf y))|intros z].
    { intros u. rewrite ?cells_pair, ?cells_cons. rewrite !in_app_iff. tauto. }
    apply disciplined_bind; [refine (disciplined_wk _ (a, l) _ _ IH)|intros zs].
    { intros u. rewrite ?cells_pair, ?cells_cons. rewrite !in_app_iff. tauto. }
    apply disciplined_ret. intros u. rewrite ?cells_pair, ?cells_cons. rewrite !in_app_iff. tauto.
Qed.
Lemma disciplined_foldM {X S Y} `{Handles X} `{Handles S} `{Handles Y} (a : X) (f : S -> Y -> M S) l : forall s,
  (forall s y, disciplined (a, s, y) (f s y)) -> disciplined (a, s, l) (foldM f s l).
Proof.
  intros s Hf. revert s. induction l as [|y l IH]; intros s; cbn [foldM].
  - apply disciplined_ret. intros u Hu. rewrite ?cells_pair, !in_app_iff. auto.
  - apply disciplined_bind; [refine (disciplined_wk _ (a, s, y) _ _ (Hf s y))|intros s'].
    { intros u. rewrite ?cells_pair, ?cells_cons. rewrite !in_app_iff. tauto. }
    refine (disciplined_wk _ (a, s', l) _ _ (IH s')).
    intros u. rewrite ?cells_pair, ?cells_cons. rewrite !in_app_iff. tauto.
Qed.
Lemma disciplined_ubind {X Y Z} `{Handles X} `{Handles Y} `{Handles Z} (a : X) (m : M (uresult Y)) (k : Y -> M (uresult Z)) :
  disciplined a m -> (forall y, disciplined (a, y) (k y)) -> disciplined a (ubind m k).
Proof.
  intros Hm Hk. unfold ubind. apply disciplined_bind; [exact Hm|]. intros [y|e]; [exact (Hk y)|]. apply disciplined_ret. intros u [].
Qed.
Lemma copies_new : copies_live ctx_new.
Proof. intros a b []. Qed.
Lemma copies_ends c : copies_live c -> ends_recorded c.
Proof. intros K [a b] Hp. destruct (K a b Hp) as [[? _] [? _]]. auto. Qed.
Lemma copyable_ok {NM : NMod} x : copyable x -> (adv_exists x && existsb (Nat.eqb (adv_col cfg (c_chip x) (c_col x))) (cs_eq css)) = true.
Proof.
  destruct x as [[| |] col row]; unfold copyable; cbn [c_chip c_col]; unfold adv_exists, adv_col, cfg, css; cbn.
  - intros K. do 5 (destruct col as [|col]; [reflexivity|]). lia.
  - intros ->. reflexivity.
  - intros [->| ->]; reflexivity.
Qed.

Lemma C55_gadgets_main :
  forall (NM : NMod),
    (forall (pairs : list pair_t) (constant : option Z), disciplined pairs (one_line_add pairs constant))
 /\ (forall (elems : list (av * Z)) (constant : option Z), disciplined elems (sum_with_constant_in_one_line elems constant))
 /\ (forall (elems : list (av * Z)) (constant : option Z), disciplined elems (sum_with_constant elems constant))
 /\ (forall (a : av) (b : av), disciplined (a, b) (add a b))
 /\ (forall (a : av) (c : Z), disciplined a (add_constant a c))
 /\ (forall (a : av) (b : av), disciplined (a, b) (sub a b))
 /\ (forall (a : av) (b : av), disciplined (a, b) (mul a b))
 /\ (forall (a : av) (b : av) (c : Z), disciplined (a, b) (mul_add_constant a b c))
 /\ (forall (a : av) (b : av) (ab_coeff : Z) (c : av) (c_coeff : Z), disciplined (a, b, c) (mul_add a b ab_coeff c c_coeff))
 /\ (forall (first : bool) (t : Z) (ls : list mterm), disciplined ls (mul_add_lines first t ls))
 /\ (forall (ls : list mterm), disciplined ls (mul_add_with_next_line ls))
 /\ (forall (a : av), disciplined a (invert_unsafe a))
 /\ (forall (a : av), disciplined a (invert a))
 /\ (forall (a : av), disciplined a (is_zero a))
 /\ (forall (a : av) (b : av), disciplined (a, b) (div_unsafe a b))
 /\ (forall (v : Z), disciplined tt (assign_constant v))
 /\ (forall (v : Z), disciplined tt (assign v))
 /\ (forall (a : Z), disciplined tt (assign_bit a))
 /\ (forall (a : av) (b : av), disciplined (a, b) (assert_equal a b))
 /\ (forall (a : av) (b : Z), disciplined a (assert_constant a b))
 /\ (forall (a : av), disciplined a (assert_bit a))
 /\ (forall (a : acond) (b : acond), disciplined (a, b) (and_ a b))
 /\ (forall (a : acond), disciplined a (not_ a))
 /\ (forall (a : acond) (b : acond), disciplined (a, b) (not_and a b))
 /\ (forall (a : acond) (b : acond), disciplined (a, b) (or_ a b))
 /\ (forall (a : acond) (b : acond), disciplined (a, b) (xor_ a b))
 /\ (forall (a : acond) (b : acond), disciplined (a, b) (xnor_ a b))
 /\ (forall (cond : acond) (a : av) (b : av), disciplined (cond, a, b) (bisec cond a b))
 /\ (forall (cond : acond) (a : acond) (b : acond), disciplined (cond, a, b) (bisec_cond cond a b))
 /\ (forall (a : acond), disciplined a (assert_true a))
 /\ (forall (a : acond), disciplined a (assert_false a))
 /\ (forall (a : acond), disciplined a (try_assert_false a))
 /\ (forall (bn : Z), disciplined tt (assign_nonleading_limb bn))
 /\ (forall (I0 : rinfo) (bn : Z), disciplined tt (assign_w_ceil_leading_limb I0 bn))
 /\ (forall (I0 : rinfo) (bn : Z), disciplined tt (assign_d_leading_limb I0 bn))
 /\ (forall x0 (limbs : list av), disciplined limbs (native_of x0 limbs))
 /\ (forall x0 (a : aint) (b : aint) (d : list av) (pos : nat), disciplined (a, b, d) (mul_column x0 a b d pos))
 /\ (forall x0 (u : av), disciplined u (mul_carry x0 u))
 /\ (forall x0 (a : aint) (b : aint) (d : list av) (rem : aint), disciplined (a, b, d, rem) (mul_equation_on_limbs x0 a b d rem))
 /\ (forall x0 (a : aint) (b : aint) (d_native : av) (rem : aint), disciplined (a, b, d_native, rem) (mul_equation_on_native x0 a b d_native rem))
 /\ (forall x0 (w : Z), disciplined tt (assign_w x0 w))
 /\ (forall x0 (d : Z), disciplined tt (assign_d x0 d))
 /\ (forall x0 (a : aint) (d : Z) (rem : Z) (ad : av) (arem : aint) (last : option av) (i : nat), disciplined (a, ad, arem, last) (reduce_step x0 a d rem ad arem last i))
 /\ (forall x0 (a : aint), disciplined a (reduce x0 a))
 /\ (forall x0 (a : aint), disciplined a (conditionally_reduce x0 a))
 /\ (forall x0 (a : aint) (b : aint), disciplined (a, b) (int_add x0 a b))
 /\ (forall x0 (times : Z), disciplined tt (pad_of x0 times))
 /\ (forall x0 (a : aint) (b : aint), disciplined (a, b) (int_sub x0 a b))
 /\ (forall x0 (a : aint), disciplined a (int_neg x0 a))
 /\ (forall x0 (a : aint) (b : aint), disciplined (a, b) (int_mul x0 a b))
 /\ (forall (a : aint), disciplined a (is_pure_zero a))
 /\ (forall x0 (a : aint), disciplined a (is_pure_w_modulus x0 a))
 /\ (forall x0 (a : aint), disciplined a (is_int_zero x0 a))
 /\ (forall x0 (a : aint) (b : aint), disciplined (a, b) (is_int_equal x0 a b))
 /\ (forall x0 (a : aint) (b : aint), disciplined (a, b) (int_div x0 a b))
 /\ (forall x0 (w : Z), disciplined tt (assign_int_constant x0 w))
 /\ (forall x0 (x : aint), disciplined x (int_unsafe_invert x0 x))
 /\ (forall x0 (a : aint) (b : aint), disciplined (a, b) (assert_int_equal x0 a b))
 /\ (forall x0 (a : aint), disciplined a (int_square x0 a))
 /\ (forall x0 (a : aint) (b : Z), disciplined a (int_mul_small_constant x0 a b))
 /\ (forall x0 (cond : acond) (a : aint) (b : aint), disciplined (cond, a, b) (bisec_int x0 cond a b))
 /\ (forall x0 (p : option (Z * Z)), disciplined tt (assign_constant_point x0 p))
 /\ (forall x0 x1 (x : aint) (y : aint), disciplined (x, y) (curve_sides x0 x1 x y))
 /\ (forall x0 x1 (p : option (Z * Z)), disciplined tt (assign_point x0 x1 p))
 /\ (forall x0 x1 (p : option (Z * Z)), disciplined tt (assign_non_zero_point x0 x1 p))
 /\ (forall x0, disciplined tt (assign_identity x0))
 /\ (forall x0 (cond : acond) (a : apoint) (b : apoint), disciplined (cond, a, b) (bisec_point x0 cond a b))
 /\ (forall x0 (cond : acond) (a : acurv) (b : acurv), disciplined (cond, a, b) (bisec_curvature x0 cond a b))
 /\ (forall x0 (cond : acond) (a : apointc) (b : apointc), disciplined (cond, a, b) (bisec_point_with_curvature x0 cond a b))
 /\ (forall x0 (l : aint) (ax : aint) (ay : aint) (bx : aint), disciplined (l, ax, ay, bx) (lambda_xy x0 l ax ay bx))
 /\ (forall x0 (lambda : acurv) (a : apoint) (b : apoint), disciplined (lambda, a, b) (lambda_to_point x0 lambda a b))
 /\ (forall x0 (a : apointc) (b : apoint), disciplined (a, b) (ecc_add x0 a b))
 /\ (forall x0 x1 (a : apointc), disciplined a (ecc_double x0 x1 a))
 /\ (forall x0 (a : apoint) (b : apoint), disciplined (a, b) (ecc_assert_equal x0 a b))
 /\ (forall x0 (a : apoint), disciplined a (ecc_neg x0 a))
 /\ (forall x0 (a : apoint), disciplined a (ecc_reduce x0 a))
 /\ (forall x0 (x : aint) (y : aint), disciplined (x, y) (curvature_of x0 x y))
 /\ (forall x0 (a : apoint), disciplined a (ecc_reduce_with_curvature x0 a))
 /\ (forall x0 (a : apoint), disciplined a (to_point_with_curvature x0 a))
 /\ (forall x0 (p : apoint), disciplined p (ecc_encode x0 p))
 /\ (forall x0 (p : aint) (sc : Z) (g : Z) (offset : Z), disciplined p (assign_cache_integer x0 p sc g offset))
 /\ (forall x0 (p : aint) (sc : av) (g : Z) (offset : Z), disciplined (p, sc) (assign_selected_integer x0 p sc g offset))
 /\ (forall x0 (p : apointc) (g : Z) (sc : Z), disciplined p (assign_cache_point x0 p g sc))
 /\ (forall x0 (p : apointc) (sc : av) (g : Z), disciplined (p, sc) (assign_selected_point x0 p sc g))
 /\ (forall x0 (lambda : aint) (a : anz) (b : anz), disciplined (lambda, a, b) (lambda_to_point_non_zero x0 lambda a b))
 /\ (forall x0 (a : anz) (b : anz), disciplined (a, b) (ecc_add_unsafe x0 a b))
 /\ (forall x0 (a : anz), disciplined a (ecc_double_unsafe x0 a))
 /\ (forall x0 (a : anz), disciplined a (ecc_neg_non_zero x0 a))
 /\ (forall x0 (a : anz), disciplined a (ecc_reduce_non_zero x0 a))
 /\ (forall x0 (cond : acond) (a : anz) (b : anz), disciplined (cond, a, b) (ecc_bisec_non_zero_point x0 cond a b))
 /\ (forall x0 (bit : acond) (cs : list anz), disciplined (bit, cs) (bisec_pairs x0 bit cs))
 /\ (forall x0 (candidates : list anz) (group_bits : list acond), disciplined (candidates, group_bits) (bisec_candidate_non_zero x0 candidates group_bits))
 /\ (forall (candidates : list anz) (group_bits : list acond), disciplined (candidates, group_bits) (pick_candidate_non_zero candidates group_bits))
 /\ (forall x0 (p : anz) (sc : av) (g : Z), disciplined (p, sc) (assign_selected_point_non_zero x0 p sc g))
 /\ (forall x0 (p : anz) (g : Z) (sc : Z), disciplined p (assign_cache_point_non_zero x0 p g sc))
 /\ (forall x0 (a : anz) (b : anz), disciplined (a, b) (ecc_assert_equal_non_zero x0 a b))
 /\ (forall (a : anz), disciplined a (ecc_non_zero_point_downgrade a))
 /\ (forall x0 (a : apoint) (b : anz), disciplined (a, b) (ecc_bisec_to_non_zero_point x0 a b))
 /\ (forall (W : nat) (bits : list acond), disciplined bits (to_windows W bits))
 /\ (forall (s_bn : Z) (st : av * list acond) (i : nat), disciplined st (native_step s_bn st i))
 /\ (forall (W : nat) (s : av), disciplined s (decompose_scalar_native W s))
 /\ (forall (two_inv : Z) (v : Z) (st : av * list acond) (j : nat), disciplined st (general_step two_inv v st j))
 /\ (forall (two_inv : Z) (l : av), disciplined l (general_limb two_inv l))
 /\ (forall (I0 : rinfo) (W : nat) (s : aint), disciplined s (decompose_scalar_general I0 W s)).
Proof.
  intros NM.
  split; [intros; apply J_disciplined; intros ?; apply ho_one_line_add; hd|].
  split; [intros; apply J_disciplined; intros ?; apply ho_sum_with_constant_in_one_line; hd|].
  split; [intros; apply J_disciplined; intros ?; apply ho_sum_with_constant; hd|].
  split; [intros; apply J_disciplined; intros ?; apply ho_add; hd|].
  split; [intros; apply J_disciplined; intros ?; apply ho_add_constant; hd|].
  split; [intros; apply J_disciplined; intros ?; apply ho_sub; hd|].
  split; [intros; apply J_disciplined; intros ?; apply ho_mul; hd|].
  split; [intros; apply J_disciplined; intros ?; apply ho_mul_add_constant; hd|].
  split; [intros; apply J_disciplined; intros ?; apply ho_mul_add; hd|].
  split; [intros; apply J_disciplined; intros ?; apply ho_mul_add_lines; hd|].
  split; [intros; apply J_disciplined; intros ?; apply ho_mul_add_with_next_line; hd|].
  split; [intros; apply J_disciplined; intros ?; apply ho_invert_unsafe; hd|].
  split; [intros; apply J_disciplined; intros ?; apply ho_invert; hd|].
  split; [intros; apply J_disciplined; intros ?; apply ho_is_zero; hd|].
  split; [intros; apply J_disciplined; intros ?; apply ho_div_unsafe; hd|].
  split; [intros; apply J_disciplined; intros ?; apply ho_assign_constant; hd|].
  split; [intros; apply J_disciplined; intros ?; apply ho_assign; hd|].
  split; [intros; apply J_disciplined; intros ?; apply ho_assign_bit; hd|].
  split; [intros; apply J_disciplined; intros ?; apply ho_assert_equal; hd|].
  split; [intros; apply J_disciplined; intros ?; apply ho_assert_constant; hd|].
  split; [intros; apply J_disciplined; intros ?; apply ho_assert_bit; hd|].
  split; [intros; apply J_disciplined; intros ?; apply ho_and_; hd|].
  split; [intros; apply J_disciplined; intros ?; apply ho_not_; hd|].
  split; [intros; apply J_disciplined; intros ?; apply ho_not_and; hd|].
  split; [intros; apply J_disciplined; intros ?; apply ho_or_; hd|].
  split; [intros; apply J_disciplined; intros ?; apply ho_xor_; hd|].
  split; [intros; apply J_disciplined; intros ?; apply ho_xnor_; hd|].
  split; [intros; apply J_disciplined; intros ?; apply ho_bisec; hd|].
  split; [intros; apply J_disciplined; intros ?; apply ho_bisec_cond; hd|].
  split; [intros; apply J_disciplined; intros ?; apply ho_assert_true; hd|].
  split; [intros; apply J_disciplined; intros ?; apply ho_assert_false; hd|].
  split; [intros; apply J_disciplined; intros ?; apply ho_try_assert_false; hd|].
  split; [intros; apply J_disciplined; intros ?; apply ho_assign_nonleading_limb; hd|].
  split; [intros; apply J_disciplined; intros ?; apply ho_assign_w_ceil_leading_limb; hd|].
  split; [intros; apply J_disciplined; intros ?; apply ho_assign_d_leading_limb; hd|].
  split; [intros; apply J_disciplined; intros ?; apply ho_native_of; hd|].
  split; [intros; apply J_disciplined; intros ?; apply ho_mul_column; hd|].
  split; [intros; apply J_disciplined; intros ?; apply ho_mul_carry; hd|].
  split; [intros; apply J_disciplined; intros ?; apply ho_mul_equation_on_limbs; hd|].
  split; [intros; apply J_disciplined; intros ?; apply ho_mul_equation_on_native; hd|].
  split; [intros; apply J_disciplined; intros ?; apply ho_assign_w; hd|].
  split; [intros; apply J_disciplined; intros ?; apply ho_assign_d; hd|].
  split; [intros; apply J_disciplined; intros ?; apply ho_reduce_step; hd|].
  split; [intros; apply J_disciplined; intros ?; apply ho_reduce; hd|].
  split; [intros; apply J_disciplined; intros ?; apply ho_conditionally_reduce; hd|].
  split; [intros; apply J_disciplined; intros ?; apply ho_int_add; hd|].
  split; [intros; apply J_disciplined; intros ?; apply ho_pad_of; hd|].
  split; [intros; apply J_disciplined; intros ?; apply ho_int_sub; hd|].
  split; [intros; apply J_disciplined; intros ?; apply ho_int_neg; hd|].
  split; [intros; apply J_disciplined; intros ?; apply ho_int_mul; hd|].
  split; [intros; apply J_disciplined; intros ?; apply ho_is_pure_zero; hd|].
  split; [intros; apply J_disciplined; intros ?; apply ho_is_pure_w_modulus; hd|].
  split; [intros; apply J_disciplined; intros ?; apply ho_is_int_zero; hd|].
  split; [intros; apply J_disciplined; intros ?; apply ho_is_int_equal; hd|].
  split; [intros; apply J_disciplined; intros ?; apply ho_int_div; hd|].
  split; [intros; apply J_disciplined; intros ?; apply ho_assign_int_constant; hd|].
  split; [intros; apply J_disciplined; intros ?; apply ho_int_unsafe_invert; hd|].
  split; [intros; apply J_disciplined; intros ?; apply ho_assert_int_equal; hd|].
  split; [intros; apply J_disciplined; intros ?; apply ho_int_square; hd|].
  split; [intros; apply J_disciplined; intros ?; apply ho_int_mul_small_constant; hd|].
  split; [intros; apply J_disciplined; intros ?; apply ho_bisec_int; hd|].
  split; [intros; apply J_disciplined; intros ?; apply ho_assign_constant_point; hd|].
  split; [intros; apply J_disciplined; intros ?; apply ho_curve_sides; hd|].
  split; [intros; apply J_disciplined; intros ?; apply ho_assign_point; hd|].
  split; [intros; apply J_disciplined; intros ?; apply ho_assign_non_zero_point; hd|].
  split; [intros; apply J_disciplined; intros ?; apply ho_assign_identity; hd|].
  split; [intros; apply J_disciplined; intros ?; apply ho_bisec_point; hd|].
  split; [intros; apply J_disciplined; intros ?; apply ho_bisec_curvature; hd|].
  split; [intros; apply J_disciplined; intros ?; apply ho_bisec_point_with_curvature; hd|].
  split; [intros; apply J_disciplined; intros ?; apply ho_lambda_xy; hd|].
  split; [intros; apply J_disciplined; intros ?; apply ho_lambda_to_point; hd|].
  split; [intros; apply J_disciplined; intros ?; apply ho_ecc_add; hd|].
  split; [intros; apply J_disciplined; intros ?; apply ho_ecc_double; hd|].
  split; [intros; apply J_disciplined; intros ?; apply ho_ecc_assert_equal; hd|].
  split; [intros; apply J_disciplined; intros ?; apply ho_ecc_neg; hd|].
  split; [intros; apply J_disciplined; intros ?; apply ho_ecc_reduce; hd|].
  split; [intros; apply J_disciplined; intros ?; apply ho_curvature_of; hd|].
  split; [intros; apply J_disciplined; intros ?; apply ho_ecc_reduce_with_curvature; hd|].
  split; [intros; apply J_disciplined; intros ?; apply ho_to_point_with_curvature; hd|].
  split; [intros; apply J_disciplined; intros ?; apply ho_ecc_encode; hd|].
  split; [intros; apply J_disciplined; intros ?; apply ho_assign_cache_integer; hd|].
  split; [intros; apply J_disciplined; intros ?; apply ho_assign_selected_integer; hd|].
  split; [intros; apply J_disciplined; intros ?; apply ho_assign_cache_point; hd|].
  split; [intros; apply J_disciplined; intros ?; apply ho_assign_selected_point; hd|].
  split; [intros; apply J_disciplined; intros ?; apply ho_lambda_to_point_non_zero; hd|].
  split; [intros; apply J_disciplined; intros ?; apply ho_ecc_add_unsafe; hd|].
  split; [intros; apply J_disciplined; intros ?; apply ho_ecc_double_unsafe; hd|].
  split; [intros; apply J_disciplined; intros ?; apply ho_ecc_neg_non_zero; hd|].
  split; [intros; apply J_disciplined; intros ?; apply ho_ecc_reduce_non_zero; hd|].
  split; [intros; apply J_disciplined; intros ?; apply ho_ecc_bisec_non_zero_point; hd|].
  split; [intros; apply J_disciplined; intros ?; apply ho_bisec_pairs; hd|].
  split; [intros; apply J_disciplined; intros ?; apply ho_bisec_candidate_non_zero; hd|].
  split; [intros; apply J_disciplined; intros ?; apply ho_pick_candidate_non_zero; hd|].
  split; [intros; apply J_disciplined; intros ?; apply ho_assign_selected_point_non_zero; hd|].
  split; [intros; apply J_disciplined; intros ?; apply ho_assign_cache_point_non_zero; hd|].
  split; [intros; apply J_disciplined; intros ?; apply ho_ecc_assert_equal_non_zero; hd|].
  split; [intros; apply J_disciplined; intros ?; apply ho_ecc_non_zero_point_downgrade; hd|].
  split; [intros; apply J_disciplined; intros ?; apply ho_ecc_bisec_to_non_zero_point; hd|].
  split; [intros; apply J_disciplined; intros ?; apply ho_to_windows; hd|].
  split; [intros; apply J_disciplined; intros ?; apply ho_native_step; hd|].
  split; [intros; apply J_disciplined; intros ?; apply ho_decompose_scalar_native; hd|].
  split; [intros; apply J_disciplined; intros ?; apply ho_general_step; hd|].
  split; [intros; apply J_disciplined; intros ?; apply ho_general_limb; hd|].
  intros; apply J_disciplined; intros ?; apply ho_decompose_scalar_general; hd.
Qed.

Lemma C55_recorder_main :
  forall (NM : NMod),
    (forall pairs constant muls next, disciplined pairs (one_line pairs constant muls next))
 /\ (forall pairs tail constant muls next, disciplined (pairs, tail) (one_line_with_last pairs tail constant muls next))
 /\ (forall bn, disciplined tt (assign_common bn))
 /\ (forall bn k bits, disciplined tt (assign_limb bn k bits))
 /\ (forall v offset g sc, disciplined v (assign_cache_value v offset g sc))
 /\ (forall v offset g sc, disciplined sc (assign_selected_value v offset g sc)).
Proof.
  intros NM.
  split; [intros; apply J_disciplined; intros ?; apply J_one_line; hd|].
  split; [intros; apply J_disciplined; intros ?; apply J_one_line_with_last; hd|].
  split; [intros; apply J_disciplined; intros ?; apply J_common; hd|].
  split; [intros; apply J_disciplined; intros ?; apply J_limb; hd|].
  split; [intros; apply J_disciplined; intros ?; apply J_cache; hd|].
  intros; apply J_disciplined; intros ?; apply J_select; hd.
Qed.

Lemma C55_tower_main :
  forall (NM : NMod) (I : rinfo) (nonres : afq2 -> M afq2), nonres = bn_nonres I \/ nonres = bls_nonres I ->
    (forall (a : afq6) (b : afq6), disciplined (a, b) (fq6_mul I nonres a b))
 /\ (forall (a : afq6), disciplined a (fq6_square I nonres a))
 /\ (forall (a : afq6) (b1 : afq2), disciplined (a, b1) (fq6_mul_by_1 I nonres a b1))
 /\ (forall (a : afq6) (b0 : afq2) (b1 : afq2), disciplined (a, b0, b1) (fq6_mul_by_01 I nonres a b0 b1))
 /\ (forall (x : afq6), disciplined x (fq6_unsafe_invert I nonres x))
 /\ (forall (a : afq6), disciplined a (fq6_mul_by_nonresidue nonres a))
 /\ (forall (a : afq12) (b : afq12), disciplined (a, b) (fq12_mul I nonres a b))
 /\ (forall (a : afq12), disciplined a (fq12_square I nonres a))
 /\ (forall (x : afq12) (c0 : afq2) (c1 : afq2) (c4 : afq2), disciplined (x, c0, c1, c4) (fq12_mul_by_014 I nonres x c0 c1 c4))
 /\ (forall (x : afq12) (c0 : afq2) (c3 : afq2) (c4 : afq2), disciplined (x, c0, c3, c4) (fq12_mul_by_034 I nonres x c0 c3 c4))
 /\ (forall (a0 : afq2) (a1 : afq2), disciplined (a0, a1) (fp4_square I nonres a0 a1))
 /\ (forall (x : afq12), disciplined x (fq12_cyclotomic_square I nonres x))
 /\ (forall (x : afq12), disciplined x (fq12_unsafe_invert I nonres x)).
Proof.
  intros NM I nonres Hn.
  assert (Hj : forall (W : World) (Q : Prop) a, (Q -> ok a) -> J Q (nonres a)).
  { intros W Q a K. destruct Hn as [-> | ->]; [apply ho_bn_nonres|apply ho_bls_nonres]; exact K. }
  split; [intros; apply J_disciplined; intros ?; apply ho_fq6_mul; first [exact (Hj _)|hd]|].
  split; [intros; apply J_disciplined; intros ?; apply ho_fq6_square; first [exact (Hj _)|hd]|].
  split; [intros; apply J_disciplined; intros ?; apply ho_fq6_mul_by_1; first [exact (Hj _)|hd]|].
  split; [intros; apply J_disciplined; intros ?; apply ho_fq6_mul_by_01; first [exact (Hj _)|hd]|].
  split; [intros; apply J_disciplined; intros ?; apply ho_fq6_unsafe_invert; first [exact (Hj _)|hd]|].
  split; [intros; apply J_disciplined; intros ?; apply ho_fq6_mul_by_nonresidue; first [exact (Hj _)|hd]|].
  split; [intros; apply J_disciplined; intros ?; apply ho_fq12_mul; first [exact (Hj _)|hd]|].
  split; [intros; apply J_disciplined; intros ?; apply ho_fq12_square; first [exact (Hj _)|hd]|].
  split; [intros; apply J_disciplined; intros ?; apply ho_fq12_mul_by_014; first [exact (Hj _)|hd]|].
  split; [intros; apply J_disciplined; intros ?; apply ho_fq12_mul_by_034; first [exact (Hj _)|hd]|].
  split; [intros; apply J_disciplined; intros ?; apply ho_fp4_square; first [exact (Hj _)|hd]|].
  split; [intros; apply J_disciplined; intros ?; apply ho_fq12_cyclotomic_square; first [exact (Hj _)|hd]|].
  intros; apply J_disciplined; intros ?; apply ho_fq12_unsafe_invert; first [exact (Hj _)|hd].
Qed.

Lemma C55_pairing_keccak_main :
  forall (NM : NMod),
    (forall I (x : afq2), disciplined x (fq2_reduce I x))
 /\ (forall I (x : afq2) (y : afq2), disciplined (x, y) (fq2_assert_equal I x y))
 /\ (forall I, disciplined tt (fq2_assign_zero I))
 /\ (forall I, disciplined tt (fq2_assign_one I))
 /\ (forall I (c : Z * Z), disciplined tt (fq2_assign_constant I c))
 /\ (forall I (a : afq2) (b : afq2), disciplined (a, b) (fq2_add I a b))
 /\ (forall I (a : afq2) (b : afq2), disciplined (a, b) (fq2_mul I a b))
 /\ (forall I (a : afq2) (b : afq2), disciplined (a, b) (fq2_sub I a b))
 /\ (forall I (a : afq2), disciplined a (fq2_double I a))
 /\ (forall I (a : afq2), disciplined a (fq2_square I a))
 /\ (forall I (a : afq2), disciplined a (fq2_neg I a))
 /\ (forall I (a : afq2), disciplined a (fq2_conjugate I a))
 /\ (forall I (x : afq2), disciplined x (fq2_unsafe_invert I x))
 /\ (forall I (x : afq6), disciplined x (fq6_reduce I x))
 /\ (forall I (x : afq6) (y : afq6), disciplined (x, y) (fq6_assert_equal I x y))
 /\ (forall I, disciplined tt (fq6_assign_zero I))
 /\ (forall I, disciplined tt (fq6_assign_one I))
 /\ (forall I (a : afq6) (b : afq6), disciplined (a, b) (fq6_add I a b))
 /\ (forall I (a : afq6) (b : afq6), disciplined (a, b) (fq6_sub I a b))
 /\ (forall I (a : afq6), disciplined a (fq6_double I a))
 /\ (forall I (a : afq6), disciplined a (fq6_neg I a))
 /\ (forall I (c : (Z * Z) * (Z * Z) * (Z * Z)), disciplined tt (fq6_assign_constant I c))
 /\ (forall I (x : afq12), disciplined x (fq12_reduce I x))
 /\ (forall I (x : afq12) (y : afq12), disciplined (x, y) (fq12_assert_eq I x y))
 /\ (forall I, disciplined tt (fq12_assign_zero I))
 /\ (forall I, disciplined tt (fq12_assign_one I))
 /\ (forall I (x : afq12), disciplined x (fq12_assert_one I x))
 /\ (forall I (a : afq12) (b : afq12), disciplined (a, b) (fq12_add I a b))
 /\ (forall I (a : afq12) (b : afq12), disciplined (a, b) (fq12_sub I a b))
 /\ (forall I (a : afq12), disciplined a (fq12_double I a))
 /\ (forall I (a : afq12), disciplined a (fq12_neg I a))
 /\ (forall I (x : afq12), disciplined x (fq12_conjugate I x))
 /\ (forall I (c : ((Z * Z) * (Z * Z) * (Z * Z)) * ((Z * Z) * (Z * Z) * (Z * Z))), disciplined tt (fq12_assign_constant I c))
 /\ (forall I (pt : ag2), disciplined pt (doubling_step I pt))
 /\ (forall I (pt : ag2) (pq : ag2a), disciplined (pt, pq) (addition_step I pt pq))
 /\ (forall I (g : ag2a), disciplined g (g2affine_to_g2 I g))
 /\ (forall I (g : ag2a), disciplined g (g2_neg I g))
 /\ (forall I (a : afq2), disciplined a (bn_nonres I a))
 /\ (forall I (x : afq2) (power : nat), disciplined x (bn_fq2_frobenius_map I x power))
 /\ (forall I (x : afq6) (power : nat), disciplined x (bn_fq6_frobenius_map I x power))
 /\ (forall I (x : afq12) (power : nat), disciplined x (bn_fq12_frobenius_map I x power))
 /\ (forall I (g2 : ag2a) (neg_g2 : ag2a) (r : ag2), disciplined (g2, neg_g2, r) (bn_prepare_loop I g2 neg_g2 r))
 /\ (forall I (g2 : ag2a), disciplined g2 (bn_prepare_g2 I g2))
 /\ (forall I (f : afq12) (k : acoeff) (p : apoint), disciplined (f, k, p) (bn_ell I f k p))
 /\ (forall I (terms : list (apoint * list acoeff)), disciplined terms (bn_multi_miller_loop I terms))
 /\ (forall I (f : afq12), disciplined f (bn_exp_by_x I f))
 /\ (forall I (f : afq12), disciplined f (bn_final_exponentiation I f))
 /\ (forall I (a : afq2), disciplined a (bls_nonres I a))
 /\ (forall I (x : afq2) (_power : nat), disciplined x (bls_fq2_frobenius_map I x _power))
 /\ (forall I (x : afq6) (power : nat), disciplined x (bls_fq6_frobenius_map I x power))
 /\ (forall I (x : afq12) (power : nat), disciplined x (bls_fq12_frobenius_map I x power))
 /\ (forall I (f : afq12) (k : acoeff) (p : apoint), disciplined (f, k, p) (bls_ell I f k p))
 /\ (forall I (f : afq12), disciplined f (bls_cycolotomic_exp I f))
 /\ (forall I (g2 : ag2a), disciplined g2 (bls_prepare_g2 I g2))
 /\ (forall I (terms : list (apoint * list acoeff)), disciplined terms (bls_multi_miller_loop I terms))
 /\ (forall I (f : afq12), disciplined f (bls_final_exponentiation I f))
 /\ (forall I (terms : list (apoint * ag2a)), disciplined terms (bn_pairing I terms))
 /\ (forall I (terms : list (apoint * ag2a)), disciplined terms (bn_check_pairing I terms))
 /\ (forall I (terms : list (apoint * ag2a)), disciplined terms (bls_pairing I terms))
 /\ (forall I (terms : list (apoint * ag2a)), disciplined terms (bls_check_pairing I terms))
 /\ (forall (a : list acond) (b : list acond), disciplined (a, b) (xor_lanes a b))
 /\ (disciplined tt (k_init))
 /\ (forall (st : kstate), disciplined st (theta st))
 /\ (forall (st : kstate), disciplined st (xi st))
 /\ (forall (st : kstate) (round : nat), disciplined st (iota st round))
 /\ (forall (st : kstate), disciplined st (permute st))
 /\ (forall (st : kstate) (input : list acond), disciplined (st, input) (absorb st input))
 /\ (forall (s_bn : Z) (st : av * list acond) (i : nat), disciplined st (u256_step s_bn st i))
 /\ (forall (s_bn : Z) (s : av), disciplined s (decompose_u256_with s_bn s))
 /\ (forall (s : av), disciplined s (decompose_scalar_as_u256_be s))
 /\ (forall (acc : av) (s : list acond), disciplined (acc, s) (compose_loop acc s))
 /\ (forall (s : list acond), disciplined s (compose_to_scalar_be s))
 /\ (forall (input : list (Z * av)), disciplined input (hash_with input))
 /\ (forall (input : list av), disciplined input (hash input)).
Proof.
  intros NM.
  split; [intros; apply J_disciplined; intros ?; apply ho_fq2_reduce; hd|].
  split; [intros; apply J_disciplined; intros ?; apply ho_fq2_assert_equal; hd|].
  split; [intros; apply J_disciplined; intros ?; apply ho_fq2_assign_zero; hd|].
  split; [intros; apply J_disciplined; intros ?; apply ho_fq2_assign_one; hd|].
  split; [intros; apply J_disciplined; intros ?; apply ho_fq2_assign_constant; hd|].
  split; [intros; apply J_disciplined; intros ?; apply ho_fq2_add; hd|].
  split; [intros; apply J_disciplined; intros ?; apply ho_fq2_mul; hd|].
  split; [intros; apply J_disciplined; intros ?; apply ho_fq2_sub; hd|].
  split; [intros; apply J_disciplined; intros ?; apply ho_fq2_double; hd|].
  split; [intros; apply J_disciplined; intros ?; apply ho_fq2_square; hd|].
  split; [intros; apply J_disciplined; intros ?; apply ho_fq2_neg; hd|].
  split; [intros; apply J_disciplined; intros ?; apply ho_fq2_conjugate; hd|].
  split; [intros; apply J_disciplined; intros ?; apply ho_fq2_unsafe_invert; hd|].
  split; [intros; apply J_disciplined; intros ?; apply ho_fq6_reduce; hd|].
  split; [intros; apply J_disciplined; intros ?; apply ho_fq6_assert_equal; hd|].
  split; [intros; apply J_disciplined; intros ?; apply ho_fq6_assign_zero; hd|].
  split; [intros; apply J_disciplined; intros ?; apply ho_fq6_assign_one; hd|].
  split; [intros; apply J_disciplined; intros ?; apply ho_fq6_add; hd|].
  split; [intros; apply J_disciplined; intros ?; apply ho_fq6_sub; hd|].
  split; [intros; apply J_disciplined; intros ?; apply ho_fq6_double; hd|].
  split; [intros; apply J_disciplined; intros ?; apply ho_fq6_neg; hd|].
  split; [intros; apply J_disciplined; intros ?; apply ho_fq6_assign_constant; hd|].
  split; [intros; apply J_disciplined; intros ?; apply ho_fq12_reduce; hd|].
  split; [intros; apply J_disciplined; intros ?; apply ho_fq12_assert_eq; hd|].
  split; [intros; apply J_disciplined; intros ?; apply ho_fq12_assign_zero; hd|].
  split; [intros; apply J_disciplined; intros ?; apply ho_fq12_assign_one; hd|].
  split; [intros; apply J_disciplined; intros ?; apply ho_fq12_assert_one; hd|].
  split; [intros; apply J_disciplined; intros ?; apply ho_fq12_add; hd|].
  split; [intros; apply J_disciplined; intros ?; apply ho_fq12_sub; hd|].
  split; [intros; apply J_disciplined; intros ?; apply ho_fq12_double; hd|].
  split; [intros; apply J_disciplined; intros ?; apply ho_fq12_neg; hd|].
  split; [intros; apply J_disciplined; intros ?; apply ho_fq12_conjugate; hd|].
  split; [intros; apply J_disciplined; intros ?; apply ho_fq12_assign_constant; hd|].
  split; [intros; apply J_disciplined; intros ?; apply ho_doubling_step; hd|].
  split; [intros; apply J_disciplined; intros ?; apply ho_addition_step; hd|].
  split; [intros; apply J_disciplined; intros ?; apply ho_g2affine_to_g2; hd|].
  split; [intros; apply J_disciplined; intros ?; apply ho_g2_neg; hd|].
  split; [intros; apply J_disciplined; intros ?; apply ho_bn_nonres; hd|].
  split; [intros; apply J_disciplined; intros ?; apply ho_bn_fq2_frobenius_map; hd|].
  split; [intros; apply J_disciplined; intros ?; apply ho_bn_fq6_frobenius_map; hd|].
  split; [intros; apply J_disciplined; intros ?; apply ho_bn_fq12_frobenius_map; hd|].
  split; [intros; apply J_disciplined; intros ?; apply ho_bn_prepare_loop; hd|].
  split; [intros; apply J_disciplined; intros ?; apply ho_bn_prepare_g2; hd|].
  split; [intros; apply J_disciplined; intros ?; apply ho_bn_ell; hd|].
  split; [intros; apply J_disciplined; intros ?; apply ho_bn_multi_miller_loop; hd|].
  split; [intros; apply J_disciplined; intros ?; apply ho_bn_exp_by_x; hd|].
  split; [intros; apply J_disciplined; intros ?; apply ho_bn_final_exponentiation; hd|].
  split; [intros; apply J_disciplined; intros ?; apply ho_bls_nonres; hd|].
  split; [intros; apply J_disciplined; intros ?; apply ho_bls_fq2_frobenius_map; hd|].
  split; [intros; apply J_disciplined; intros ?; apply ho_bls_fq6_frobenius_map; hd|].
  split; [intros; apply J_disciplined; intros ?; apply ho_bls_fq12_frobenius_map; hd|].
  split; [intros; apply J_disciplined; intros ?; apply ho_bls_ell; hd|].
  split; [intros; apply J_disciplined; intros ?; apply ho_bls_cycolotomic_exp; hd|].
  split; [intros; apply J_disciplined; intros ?; apply ho_bls_prepare_g2; hd|].
  split; [intros; apply J_disciplined; intros ?; apply ho_bls_multi_miller_loop; hd|].
  split; [intros; apply J_disciplined; intros ?; apply ho_bls_final_exponentiation; hd|].
  split; [intros; apply J_disciplined; intros ?; apply ho_bn_pairing; hd|].
  split; [intros; apply J_disciplined; intros ?; apply ho_bn_check_pairing; hd|].
  split; [intros; apply J_disciplined; intros ?; apply ho_bls_pairing; hd|].
  split; [intros; apply J_disciplined; intros ?; apply ho_bls_check_pairing; hd|].
  split; [intros; apply J_disciplined; intros ?; apply ho_xor_lanes; hd|].
  split; [intros; apply J_disciplined; intros ?; apply ho_k_init; hd|].
  split; [intros; apply J_disciplined; intros ?; apply ho_theta; hd|].
  split; [intros; apply J_disciplined; intros ?; apply ho_xi; hd|].
  split; [intros; apply J_disciplined; intros ?; apply ho_iota; hd|].
  split; [intros; apply J_disciplined; intros ?; apply ho_permute; hd|].
  split; [intros; apply J_disciplined; intros ?; apply ho_absorb; hd|].
  split; [intros; apply J_disciplined; intros ?; apply ho_u256_step; hd|].
  split; [intros; apply J_disciplined; intros ?; apply ho_decompose_u256_with; hd|].
  split; [intros; apply J_disciplined; intros ?; apply ho_decompose_scalar_as_u256_be; hd|].
  split; [intros; apply J_disciplined; intros ?; apply ho_compose_loop; hd|].
  split; [intros; apply J_disciplined; intros ?; apply ho_compose_to_scalar_be; hd|].
  split; [intros; apply J_disciplined; intros ?; apply ho_hash_with; hd|].
  intros; apply J_disciplined; intros ?; apply ho_hash; hd.
Qed.

Lemma C55_msm_main :
  forall (NM : NMod) (I : rinfo) b gen ra rl prefix points,
    (forall scalars, disciplined (points, scalars) (msm_native I b gen ra rl prefix points scalars))
 /\ (forall Is scalars, disciplined (points, scalars) (msm_general I Is b gen ra rl prefix points scalars)).
Proof.
  intros. split; intros; apply J_disciplined; intros ?; [apply ho_msm_native|apply ho_msm_general]; hd.
Qed.

Lemma C55_compose_main :
  (forall X Y Z (HX : Handles X) (HY : Handles Y) (HZ : Handles Z) (a : X) (m : M Y) (k : Y -> M Z),
      disciplined a m -> (forall y, disciplined (a, y) (k y)) -> disciplined a (mbind m k))
 /\ (forall X Y (HX : Handles X) (HY : Handles Y) (a : X) (y : Y), incl (cells_of y) (cells_of a) -> disciplined a (mret y))
 /\ (forall X X' Y (HX : Handles X) (HX' : Handles X') (HY : Handles Y) (a : X) (b : X') (m : M Y),
      incl (cells_of b) (cells_of a) -> disciplined b m -> disciplined a m)
 /\ (forall X Y Z (HX : Handles X) (HY : Handles Y) (HZ : Handles Z) (a : X) (f : Y -> M Z) l,
      (forall y, disciplined (a, y) (f y)) -> disciplined (a, l) (mapM f l))
 /\ (forall X S Y (HX : Handles X) (HS : Handles S) (HY : Handles Y) (a : X) (f : S -> Y -> M S) s l,
      (forall s y, disciplined (a, s, y) (f s y)) -> disciplined (a, s, l) (foldM f s l))
 /\ (forall X Y Z (HX : Handles X) (HY : Handles Y) (HZ : Handles Z) (a : X) (m : M (uresult Y)) (k : Y -> M (uresult Z)),
      disciplined a m -> (forall y, disciplined (a, y) (k y)) -> disciplined a (ubind m k)).
Proof.
  split; [intros; eapply disciplined_bind; eauto|]. split; [intros; apply disciplined_ret; assumption|].
  split; [intros X X' Y HX HX' HY a b m Hi Hm; exact (disciplined_wk a b m Hi Hm)|]. split; [intros; apply disciplined_mapM; assumption|].
  split; [intros X S Y HX HS HY a f s l Hf; exact (disciplined_foldM a f l s Hf)|].
  intros X Y Z HX HY HZ a m k Hm Hk. exact (disciplined_ubind a m k Hm Hk).
Qed.

Lemma C39_disciplined_partial_main :
  forall (NM : NMod) X (HX : Handles X) (m : M X) x c, program m -> disciplined tt m -> m ctx_new = Ok (x, c) ->
    (0 < base_h c)%nat -> (let chunks := (base_h c + 15) / 16 in range_h c <= chunks * 16 * chunks)%nat ->
    exists r, assign_all c = Ok r
      /\ (forall x, r_adv r x = get_adv (c_mem c) x)
      /\ (forall x, r_fix r x = get_fix (c_mem c) x)
      /\ r_copies r = rev (c_perms c).
Proof.
  intros NM X HX m x c P D E B K. destruct (D ctx_new x c) as (Cl & _ & _); [constructor|exact copies_new|exact E|].
  eapply C39_assign_all_partial_main; [exact P|exact covered_new|exact flagged_new|exact E|apply copies_ends, Cl|exact B|exact K].
Qed.

Lemma C54_synthesis_succeeds_main :
  forall (NM : NMod) X (HX : Handles X) (m : M X) x c, program m -> disciplined tt m -> m ctx_new = Ok (x, c) ->
    (0 < base_h c)%nat -> (let chunks := (base_h c + 15) / 16 in range_h c <= chunks * 16 * chunks)%nat ->
    let '(g, s) := configure cs_new in exists F w, synthesise g s c = Ok (F, w).
Proof.
  intros NM X HX m x c P D E B K. rewrite configured.
  destruct (C39_disciplined_partial_main NM X HX m x c P D E B K) as (r & Er & _ & _ & Ec).
  destruct (D ctx_new x c) as (Cl & _ & _); [constructor|exact copies_new|exact E|].
  apply synthesise_ok. rewrite Er, Ec. apply forallb_forall. intros [a b] Hp. apply in_rev in Hp. destruct (Cl a b Hp) as [[_ Ca] [_ Cb]].
  cbn [fst snd]. rewrite (copyable_ok a Ca), (copyable_ok b Cb). reflexivity.
Qed.

