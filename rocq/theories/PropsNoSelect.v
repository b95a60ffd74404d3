(** PROPERTY C56: circuits without a select chip.

    NoSelect.v models the synthesis and the constraint system without the select chip.  SpecNoSelect.v: [leaves_select m] says that m does not
    change the height of the select chip. *)
From Verif Require Import Prelude FieldZ Circuit Context Spec BaseChip RangeInfo RangeChip IntegerChip EccChip ScalarChip Msm
  Moduli Fields PairingConsts Fq12Chip PairingChip KeccakChip Synth SpecHeights SpecRecorder Progs Halo2 Configure SpecHandles NoSelect SpecNoSelect NoSelMain.
(** C56: no gadget of the base, range, integer, point and scalar chips, of the tower, the pairings and keccak records anything for the select
    chip (the gadgets of the select chip itself excepted), nor does a multi-scalar multiplication in a context without a select chip. *)
Theorem C56_gadgets :
  forall (NM : NMod),
    (forall (pairs : list pair_t) (constant : option Z), leaves_select (one_line_add pairs constant))
 /\ (forall (elems : list (av * Z)) (constant : option Z), leaves_select (sum_with_constant_in_one_line elems constant))
 /\ (forall (elems : list (av * Z)) (constant : option Z), leaves_select (sum_with_constant elems constant))
 /\ (forall (a : av) (b : av), leaves_select (add a b))
 /\ (forall (a : av) (c : Z), leaves_select (add_constant a c))
 /\ (forall (a : av) (b : av), leaves_select (sub a b))
 /\ (forall (a : av) (b : av), leaves_select (mul a b))
 /\ (forall (a : av) (b : av) (c : Z), leaves_select (mul_add_constant a b c))
 /\ (forall (a : av) (b : av) (ab_coeff : Z) (c : av) (c_coeff : Z), leaves_select (mul_add a b ab_coeff c c_coeff))
 /\ (forall (first : bool) (t : Z) (ls : list mterm), leaves_select (mul_add_lines first t ls))
 /\ (forall (ls : list mterm), leaves_select (mul_add_with_next_line ls))
 /\ (forall (a : av), leaves_select (invert_unsafe a))
 /\ (forall (a : av), leaves_select (invert a))
 /\ (forall (a : av), leaves_select (is_zero a))
 /\ (forall (a : av) (b : av), leaves_select (div_unsafe a b))
 /\ (forall (v : Z), leaves_select (assign_constant v))
 /\ (forall (v : Z), leaves_select (assign v))
 /\ (forall (a : Z), leaves_select (assign_bit a))
 /\ (forall (a : av) (b : av), leaves_select (assert_equal a b))
 /\ (forall (a : av) (b : Z), leaves_select (assert_constant a b))
 /\ (forall (a : av), leaves_select (assert_bit a))
 /\ (forall (a : acond) (b : acond), leaves_select (and_ a b))
 /\ (forall (a : acond), leaves_select (not_ a))
 /\ (forall (a : acond) (b : acond), leaves_select (not_and a b))
 /\ (forall (a : acond) (b : acond), leaves_select (or_ a b))
 /\ (forall (a : acond) (b : acond), leaves_select (xor_ a b))
 /\ (forall (a : acond) (b : acond), leaves_select (xnor_ a b))
 /\ (forall (cond : acond) (a : av) (b : av), leaves_select (bisec cond a b))
 /\ (forall (cond : acond) (a : acond) (b : acond), leaves_select (bisec_cond cond a b))
 /\ (forall (a : acond), leaves_select (assert_true a))
 /\ (forall (a : acond), leaves_select (assert_false a))
 /\ (forall (a : acond), leaves_select (try_assert_false a))
 /\ (forall (bn : Z), leaves_select (assign_nonleading_limb bn))
 /\ (forall (I0 : rinfo) (bn : Z), leaves_select (assign_w_ceil_leading_limb I0 bn))
 /\ (forall (I0 : rinfo) (bn : Z), leaves_select (assign_d_leading_limb I0 bn))
 /\ (forall x0 (limbs : list av), leaves_select (native_of x0 limbs))
 /\ (forall x0 (a : aint) (b : aint) (d : list av) (pos : nat), leaves_select (mul_column x0 a b d pos))
 /\ (forall x0 (u : av), leaves_select (mul_carry x0 u))
 /\ (forall x0 (a : aint) (b : aint) (d : list av) (rem : aint), leaves_select (mul_equation_on_limbs x0 a b d rem))
 /\ (forall x0 (a : aint) (b : aint) (d_native : av) (rem : aint), leaves_select (mul_equation_on_native x0 a b d_native rem))
 /\ (forall x0 (w : Z), leaves_select (assign_w x0 w))
 /\ (forall x0 (d : Z), leaves_select (assign_d x0 d))
 /\ (forall x0 (a : aint) (d : Z) (rem : Z) (ad : av) (arem : aint) (last : option av) (i : nat), leaves_select (reduce_step x0 a d rem ad arem last i))
 /\ (forall x0 (a : aint), leaves_select (reduce x0 a))
 /\ (forall x0 (a : aint), leaves_select (conditionally_reduce x0 a))
 /\ (forall x0 (a : aint) (b : aint), leaves_select (int_add x0 a b))
 /\ (forall x0 (times : Z), leaves_select (pad_of x0 times))
 /\ (forall x0 (a : aint) (b : aint), leaves_select (int_sub x0 a b))
 /\ (forall x0 (a : aint), leaves_select (int_neg x0 a))
 /\ (forall x0 (a : aint) (b : aint), leaves_select (int_mul x0 a b))
 /\ (forall (a : aint), leaves_select (is_pure_zero a))
 /\ (forall x0 (a : aint), leaves_select (is_pure_w_modulus x0 a))
 /\ (forall x0 (a : aint), leaves_select (is_int_zero x0 a))
 /\ (forall x0 (a : aint) (b : aint), leaves_select (is_int_equal x0 a b))
 /\ (forall x0 (a : aint) (b : aint), leaves_select (int_div x0 a b))
 /\ (forall x0 (w : Z), leaves_select (assign_int_constant x0 w))
 /\ (forall x0 (x : aint), leaves_select (int_unsafe_invert x0 x))
 /\ (forall x0 (a : aint) (b : aint), leaves_select (assert_int_equal x0 a b))
 /\ (forall x0 (a : aint), leaves_select (int_square x0 a))
 /\ (forall x0 (a : aint) (b : Z), leaves_select (int_mul_small_constant x0 a b))
 /\ (forall x0 (cond : acond) (a : aint) (b : aint), leaves_select (bisec_int x0 cond a b))
 /\ (forall x0 (p : option (Z * Z)), leaves_select (assign_constant_point x0 p))
 /\ (forall x0 x1 (x : aint) (y : aint), leaves_select (curve_sides x0 x1 x y))
 /\ (forall x0 x1 (p : option (Z * Z)), leaves_select (assign_point x0 x1 p))
 /\ (forall x0 x1 (p : option (Z * Z)), leaves_select (assign_non_zero_point x0 x1 p))
 /\ (forall x0, leaves_select (assign_identity x0))
 /\ (forall x0 (cond : acond) (a : apoint) (b : apoint), leaves_select (bisec_point x0 cond a b))
 /\ (forall x0 (cond : acond) (a : acurv) (b : acurv), leaves_select (bisec_curvature x0 cond a b))
 /\ (forall x0 (cond : acond) (a : apointc) (b : apointc), leaves_select (bisec_point_with_curvature x0 cond a b))
 /\ (forall x0 (l : aint) (ax : aint) (ay : aint) (bx : aint), leaves_select (lambda_xy x0 l ax ay bx))
 /\ (forall x0 (lambda : acurv) (a : apoint) (b : apoint), leaves_select (lambda_to_point x0 lambda a b))
 /\ (forall x0 (a : apointc) (b : apoint), leaves_select (ecc_add x0 a b))
 /\ (forall x0 x1 (a : apointc), leaves_select (ecc_double x0 x1 a))
 /\ (forall x0 (a : apoint) (b : apoint), leaves_select (ecc_assert_equal x0 a b))
 /\ (forall x0 (a : apoint), leaves_select (ecc_neg x0 a))
 /\ (forall x0 (a : apoint), leaves_select (ecc_reduce x0 a))
 /\ (forall x0 (x : aint) (y : aint), leaves_select (curvature_of x0 x y))
 /\ (forall x0 (a : apoint), leaves_select (ecc_reduce_with_curvature x0 a))
 /\ (forall x0 (a : apoint), leaves_select (to_point_with_curvature x0 a))
 /\ (forall x0 (p : apoint), leaves_select (ecc_encode x0 p))
 /\ (forall x0 (lambda : aint) (a : anz) (b : anz), leaves_select (lambda_to_point_non_zero x0 lambda a b))
 /\ (forall x0 (a : anz) (b : anz), leaves_select (ecc_add_unsafe x0 a b))
 /\ (forall x0 (a : anz), leaves_select (ecc_double_unsafe x0 a))
 /\ (forall x0 (a : anz), leaves_select (ecc_neg_non_zero x0 a))
 /\ (forall x0 (a : anz), leaves_select (ecc_reduce_non_zero x0 a))
 /\ (forall x0 (cond : acond) (a : anz) (b : anz), leaves_select (ecc_bisec_non_zero_point x0 cond a b))
 /\ (forall x0 (bit : acond) (cs : list anz), leaves_select (bisec_pairs x0 bit cs))
 /\ (forall x0 (candidates : list anz) (group_bits : list acond), leaves_select (bisec_candidate_non_zero x0 candidates group_bits))
 /\ (forall (candidates : list anz) (group_bits : list acond), leaves_select (pick_candidate_non_zero candidates group_bits))
 /\ (forall x0 (a : anz) (b : anz), leaves_select (ecc_assert_equal_non_zero x0 a b))
 /\ (forall (a : anz), leaves_select (ecc_non_zero_point_downgrade a))
 /\ (forall x0 (a : apoint) (b : anz), leaves_select (ecc_bisec_to_non_zero_point x0 a b))
 /\ (forall (W : nat) (bits : list acond), leaves_select (to_windows W bits))
 /\ (forall (s_bn : Z) (st : av * list acond) (i : nat), leaves_select (native_step s_bn st i))
 /\ (forall (W : nat) (s : av), leaves_select (decompose_scalar_native W s))
 /\ (forall (two_inv : Z) (v : Z) (st : av * list acond) (j : nat), leaves_select (general_step two_inv v st j))
 /\ (forall (two_inv : Z) (l : av), leaves_select (general_limb two_inv l))
 /\ (forall (I0 : rinfo) (W : nat) (s : aint), leaves_select (decompose_scalar_general I0 W s))
 /\ (forall I (x : afq2), leaves_select (fq2_reduce I x))
 /\ (forall I (x : afq2) (y : afq2), leaves_select (fq2_assert_equal I x y))
 /\ (forall I, leaves_select (fq2_assign_zero I))
 /\ (forall I, leaves_select (fq2_assign_one I))
 /\ (forall I (c : Z * Z), leaves_select (fq2_assign_constant I c))
 /\ (forall I (a : afq2) (b : afq2), leaves_select (fq2_add I a b))
 /\ (forall I (a : afq2) (b : afq2), leaves_select (fq2_mul I a b))
 /\ (forall I (a : afq2) (b : afq2), leaves_select (fq2_sub I a b))
 /\ (forall I (a : afq2), leaves_select (fq2_double I a))
 /\ (forall I (a : afq2), leaves_select (fq2_square I a))
 /\ (forall I (a : afq2), leaves_select (fq2_neg I a))
 /\ (forall I (a : afq2), leaves_select (fq2_conjugate I a))
 /\ (forall I (x : afq2), leaves_select (fq2_unsafe_invert I x))
 /\ (forall I (x : afq6), leaves_select (fq6_reduce I x))
 /\ (forall I (x : afq6) (y : afq6), leaves_select (fq6_assert_equal I x y))
 /\ (forall I, leaves_select (fq6_assign_zero I))
 /\ (forall I, leaves_select (fq6_assign_one I))
 /\ (forall I (a : afq6) (b : afq6), leaves_select (fq6_add I a b))
 /\ (forall I (a : afq6) (b : afq6), leaves_select (fq6_sub I a b))
 /\ (forall I (a : afq6), leaves_select (fq6_double I a))
 /\ (forall I (a : afq6), leaves_select (fq6_neg I a))
 /\ (forall I (c : (Z * Z) * (Z * Z) * (Z * Z)), leaves_select (fq6_assign_constant I c))
 /\ (forall I (x : afq12), leaves_select (fq12_reduce I x))
 /\ (forall I (x : afq12) (y : afq12), leaves_select (fq12_assert_eq I x y))
 /\ (forall I, leaves_select (fq12_assign_zero I))
 /\ (forall I, leaves_select (fq12_assign_one I))
 /\ (forall I (x : afq12), leaves_select (fq12_assert_one I x))
 /\ (forall I (a : afq12) (b : afq12), leaves_select (fq12_add I a b))
 /\ (forall I (a : afq12) (b : afq12), leaves_select (fq12_sub I a b))
 /\ (forall I (a : afq12), leaves_select (fq12_double I a))
 /\ (forall I (a : afq12), leaves_select (fq12_neg I a))
 /\ (forall I (x : afq12), leaves_select (fq12_conjugate I x))
 /\ (forall I (c : ((Z * Z) * (Z * Z) * (Z * Z)) * ((Z * Z) * (Z * Z) * (Z * Z))), leaves_select (fq12_assign_constant I c))
 /\ (forall I (pt : ag2), leaves_select (doubling_step I pt))
 /\ (forall I (pt : ag2) (pq : ag2a), leaves_select (addition_step I pt pq))
 /\ (forall I (g : ag2a), leaves_select (g2affine_to_g2 I g))
 /\ (forall I (g : ag2a), leaves_select (g2_neg I g))
 /\ (forall I (a : afq2), leaves_select (bn_nonres I a))
 /\ (forall I (x : afq2) (power : nat), leaves_select (bn_fq2_frobenius_map I x power))
 /\ (forall I (x : afq6) (power : nat), leaves_select (bn_fq6_frobenius_map I x power))
 /\ (forall I (x : afq12) (power : nat), leaves_select (bn_fq12_frobenius_map I x power))
 /\ (forall I (g2 : ag2a) (neg_g2 : ag2a) (r : ag2), leaves_select (bn_prepare_loop I g2 neg_g2 r))
 /\ (forall I (g2 : ag2a), leaves_select (bn_prepare_g2 I g2))
 /\ (forall I (f : afq12) (k : acoeff) (p : apoint), leaves_select (bn_ell I f k p))
 /\ (forall I (terms : list (apoint * list acoeff)), leaves_select (bn_multi_miller_loop I terms))
 /\ (forall I (f : afq12), leaves_select (bn_exp_by_x I f))
 /\ (forall I (f : afq12), leaves_select (bn_final_exponentiation I f))
 /\ (forall I (a : afq2), leaves_select (bls_nonres I a))
 /\ (forall I (x : afq2) (_power : nat), leaves_select (bls_fq2_frobenius_map I x _power))
 /\ (forall I (x : afq6) (power : nat), leaves_select (bls_fq6_frobenius_map I x power))
 /\ (forall I (x : afq12) (power : nat), leaves_select (bls_fq12_frobenius_map I x power))
 /\ (forall I (f : afq12) (k : acoeff) (p : apoint), leaves_select (bls_ell I f k p))
 /\ (forall I (f : afq12), leaves_select (bls_cycolotomic_exp I f))
 /\ (forall I (g2 : ag2a), leaves_select (bls_prepare_g2 I g2))
 /\ (forall I (terms : list (apoint * list acoeff)), leaves_select (bls_multi_miller_loop I terms))
 /\ (forall I (f : afq12), leaves_select (bls_final_exponentiation I f))
 /\ (forall I (terms : list (apoint * ag2a)), leaves_select (bn_pairing I terms))
 /\ (forall I (terms : list (apoint * ag2a)), leaves_select (bn_check_pairing I terms))
 /\ (forall I (terms : list (apoint * ag2a)), leaves_select (bls_pairing I terms))
 /\ (forall I (terms : list (apoint * ag2a)), leaves_select (bls_check_pairing I terms))
 /\ (forall (a : list acond) (b : list acond), leaves_select (xor_lanes a b))
 /\ (leaves_select (k_init))
 /\ (forall (st : kstate), leaves_select (theta st))
 /\ (forall (st : kstate), leaves_select (xi st))
 /\ (forall (st : kstate) (round : nat), leaves_select (iota st round))
 /\ (forall (st : kstate), leaves_select (permute st))
 /\ (forall (st : kstate) (input : list acond), leaves_select (absorb st input))
 /\ (forall (s_bn : Z) (st : av * list acond) (i : nat), leaves_select (u256_step s_bn st i))
 /\ (forall (s_bn : Z) (s : av), leaves_select (decompose_u256_with s_bn s))
 /\ (forall (s : av), leaves_select (decompose_scalar_as_u256_be s))
 /\ (forall (acc : av) (s : list acond), leaves_select (compose_loop acc s))
 /\ (forall (s : list acond), leaves_select (compose_to_scalar_be s))
 /\ (forall (input : list (Z * av)), leaves_select (hash_with input))
 /\ (forall (input : list av), leaves_select (hash input))
 /\ (forall (I : rinfo) (nonres : afq2 -> M afq2), (forall a, leaves_select (nonres a)) ->
    (forall I (a : afq6) (b : afq6), leaves_select (fq6_mul I nonres a b))
 /\ (forall I (a : afq6), leaves_select (fq6_square I nonres a))
 /\ (forall I (a : afq6) (b1 : afq2), leaves_select (fq6_mul_by_1 I nonres a b1))
 /\ (forall I (a : afq6) (b0 : afq2) (b1 : afq2), leaves_select (fq6_mul_by_01 I nonres a b0 b1))
 /\ (forall I (x : afq6), leaves_select (fq6_unsafe_invert I nonres x))
 /\ (forall (a : afq6), leaves_select (fq6_mul_by_nonresidue nonres a))
 /\ (forall I (a : afq12) (b : afq12), leaves_select (fq12_mul I nonres a b))
 /\ (forall I (a : afq12), leaves_select (fq12_square I nonres a))
 /\ (forall I (x : afq12) (c0 : afq2) (c1 : afq2) (c4 : afq2), leaves_select (fq12_mul_by_014 I nonres x c0 c1 c4))
 /\ (forall I (x : afq12) (c0 : afq2) (c3 : afq2) (c4 : afq2), leaves_select (fq12_mul_by_034 I nonres x c0 c3 c4))
 /\ (forall I (a0 : afq2) (a1 : afq2), leaves_select (fp4_square I nonres a0 a1))
 /\ (forall I (x : afq12), leaves_select (fq12_cyclotomic_square I nonres x))
 /\ (forall I (x : afq12), leaves_select (fq12_unsafe_invert I nonres x)))
 /\ (forall I b gen ra rl points scalars, leaves_select (msm_native I b gen ra rl None points scalars))
 /\ (forall I Is b gen ra rl points scalars, leaves_select (msm_general I Is b gen ra rl None points scalars)).
Proof. exact C56_gadgets_main. Qed.
Print Assumptions C56_gadgets.
(** With a select chip a multi-scalar multiplication does record rows for it: the candidates are cached. *)
Example C56_gadgets_nonvacuous : exists (NM : NMod) v off g sc, ~ leaves_select (assign_cache_value v off g sc).
Proof.
  exists bn256_fr, (mkAv (bcell 0 0) 5), 0, 0, 0. intros K.
  specialize (K ctx_new _ _ eq_refl). vm_compute in K. discriminate.
Qed.

(** C56: synthesis without a select chip panics, rather than losing constraints, when something was recorded for the select chip. *)
Theorem C56_detects :
  forall (NM : NMod) X (m : M X) x c y, program m -> m ctx_new = Ok (x, c) ->
    c_chip y = SelectChip -> recorded c y -> assign_all_with_optional_select_chip false c = Panic.
Proof. exact C56_detects_main. Qed.
Print Assumptions C56_detects.
Example C56_detects_nonvacuous : let NM := bn256_fr in
  let m := (a <- assign 5 ;; assign_cache_value a 0 0 0) in
  program m /\ exists x c y, m ctx_new = Ok (x, c) /\ c_chip y = SelectChip /\ recorded c y.
Proof.
  cbv zeta. split; [apply p_gadget; Progs.pga|]. do 2 eexists. exists (mkCell SelectChip ValueCol 0). split; [vm_compute; reflexivity|].
  split; [reflexivity|]. left. vm_compute. discriminate.
Qed.

(** C56: whatever advice values halo2 accepts for a circuit synthesised without a select chip, read back they satisfy the
    recorded circuit. *)
Theorem C56_halo2_sound :
  forall (NM : NMod) X (m : M X) x c F w u n adv, 2 ^ 18 < nmod -> program m -> m ctx_new = Ok (x, c) ->
    let '(g, s) := configure_ns cs_new in
    synthesise_ns g s c = Ok (F, w) ->
    (base_h c + 2 <= u)%nat -> (range_h c + 2 <= u)%nat -> 2 ^ 19 - 1 <= Z.of_nat u -> (u <= n)%nat ->
    cs_sat n u F adv s ->
    exists A, satisfies c A
      /\ (forall y, c_chip y <> SelectChip -> (c_row y < u)%nat -> (c_col y < 5)%nat -> (c_chip y = RangeChip -> (c_col y < 3)%nat) ->
           A y = adv (adv_col_ns g (c_chip y) (c_col y)) (c_row y))
      /\ (forall Q, sound m Q -> Q A x).
Proof. exact C56_halo2_sound_main. Qed.
Print Assumptions C56_halo2_sound.

(** C56: under the chunk condition of C39, if the recorded witness satisfies the recorded circuit then halo2 accepts the table
    synthesised without a select chip, whatever is in the unusable rows. *)
Theorem C56_halo2_complete :
  forall (NM : NMod) X (m : M X) x c F w u n adv, 2 ^ 18 < nmod -> program m -> m ctx_new = Ok (x, c) ->
    let '(g, s) := configure_ns cs_new in
    synthesise_ns g s c = Ok (F, w) ->
    (let chunks := (base_h c + 15) / 16 in range_h c <= chunks * 16 * chunks)%nat ->
    (base_h c + 2 <= u)%nat -> (range_h c + 2 <= u)%nat -> 2 ^ 19 - 1 <= Z.of_nat u -> (u <= n)%nat ->
    satisfies c (honest c) ->
    (forall col row, 0 <= adv col row < nmod) -> (forall col row, (row < u)%nat -> adv col row = w col row) ->
    cs_sat n u F adv s.
Proof. exact C56_halo2_complete_main. Qed.
Print Assumptions C56_halo2_complete.

(** C56: a program on its own handles (C55) that leaves the select chip alone is synthesised without one. *)
Theorem C56_synthesis_succeeds :
  forall (NM : NMod) X (HX : Handles X) (m : M X) x c, program m -> disciplined tt m -> leaves_select m -> m ctx_new = Ok (x, c) ->
    (0 < base_h c)%nat -> (let chunks := (base_h c + 15) / 16 in range_h c <= chunks * 16 * chunks)%nat ->
    let '(g, s) := configure_ns cs_new in exists F w, synthesise_ns g s c = Ok (F, w).
Proof. exact C56_synthesis_succeeds_main. Qed.
Print Assumptions C56_synthesis_succeeds.
(** A program on any number of points and scalars; and a small one with all the conditions. *)
Example C56_succeeds_nonvacuous : forall (NM : NMod) I ps ss,
  let m := (pts <- mapM (fun v => assign_point I 3 (Some v)) ps ;; scs <- mapM assign ss ;;
            r <- msm_native I 3 (Some (1, 2)) (Some (1, 2)) (Some (1, 2)) None pts scs ;; h <- hash scs ;; mret (fst r, h)) in
  program m /\ disciplined tt m /\ leaves_select m.
Proof.
  intros. split; [|split].
  - apply p_bind; [apply p_gadget; Progs.pga|intros]. apply p_bind; [apply p_gadget; Progs.pga|intros]. apply p_bind; [apply Progs.pg_msm_native|intros].
    apply p_bind; [apply p_gadget, ProgsMore.pg_hash|intros]. apply p_gadget; Progs.pga.
  - apply Handles.J_disciplined. intros W. unfold m. Handles.jb; [HandGadgets.hoa|intros pts]. Handles.jb; [HandGadgets.hoa|intros scs].
    Handles.jb; [apply HandMore.ho_msm_native; HandGadgets.hrel|intros r]. HandGadgets.hoa.
  - apply NoSelGadgets.ns_bind; [NoSelGadgets.nsa|intros]. apply NoSelGadgets.ns_bind; [NoSelGadgets.nsa|intros].
    apply NoSelGadgets.ns_bind; [apply NoSelGadgets.ns_msm_native|intros].
    apply NoSelGadgets.ns_bind; [apply NoSelMore.ns_hash|intros; apply NoSelGadgets.ns_ret].
Qed.
Example C56_halo2_nonvacuous : let NM := bn256_fr in
  let m := (a <- assign_nonleading_limb 77 ;; b <- assign 5 ;; c <- mul a b ;; add c b) in
  2 ^ 18 < nmod /\ program m /\ disciplined tt m /\ leaves_select m /\ exists x c, m ctx_new = Ok (x, c)
  /\ (0 < base_h c)%nat /\ (let chunks := (base_h c + 15) / 16 in range_h c <= chunks * 16 * chunks)%nat
  /\ satisfies c (honest c) /\ (base_h c + 2 <= 10)%nat /\ (range_h c + 2 <= 10)%nat.
Proof.
  cbv zeta. split; [reflexivity|]. split; [apply p_gadget; unfold assign_nonleading_limb; Progs.pga|].
  split; [generalize bn256_fr as NM; intros NM; apply Handles.J_disciplined; intros W; HandGadgets.hoa|].
  split; [generalize bn256_fr as NM; intros NM; NoSelGadgets.nsa|].
  do 2 eexists. split; [vm_compute; reflexivity|]. split; [vm_compute; lia|]. split; [vm_compute; lia|].
  split; [apply (@Checker.check_honest bn256_fr); [reflexivity|vm_compute; reflexivity]|]. cbn. lia.
Qed.

