(** PROPERTY C55: handles are never dangling.

    SpecHandles.v: a cell is [live] when a value is recorded in it and its column admits copy constraints;
    [disciplined args m] says that m, run in a state whose copy constraints tie live cells, on live handles, ties live cells only, invalidates no handle and
    returns live handles only. *)
From Verif Require Import Prelude FieldZ Circuit Context Spec BaseChip RangeInfo RangeChip IntegerChip EccChip ScalarChip Msm
  Moduli Fields PairingConsts Fq12Chip PairingChip KeccakChip Synth SpecHeights SpecRecorder Progs Halo2 Configure SpecHandles HandMain.
(** C55 for the base, range, integer, point and scalar chips: every gadget (model of base_chip.rs, range_chip.rs, integer_chip.rs, ecc_chip.rs, and the
    scalar decompositions) is disciplined.  The arguments listed after disciplined are all those that carry handles. *)
Theorem C55_gadgets :
  forall (NM : NMod),
    (forall (pairs : list pair_t) (constant : option Z), disciplined pairs (one_line_add pairs constant))
 /\ (forall (elems : list (av * Z)) (constant : option Z), disciplined elems (sum_with_constant_in_one_line elems constant))
 /\ (forall (elems : list (av * Z)) (constant : option Z), disciplined elems (sum_with_constant elems constant))
 /\ (forall (a : av) (b : av), disciplined (a, b) (add a b))
 /\ (forall (a : av) (c : Z), disciplined a (add_constant a c))
 /\ (forall (a : av) (b : av), disciplined (a, b) (sub a b))
 /\ (forall (a : av) (b : av), disciplined (a, b) (mul a b))
 /\ (forall (a : av) (b : av) (c : Z), disciplined (a, b) (mul_add_constant a b c))
 /\ (forall (a : av) (b : av) (ab_coeff : Z) (c : av) (c_coeff : Z), disciplined (a, b, c) (mul_add a b ab_coeff c c_coeff))
 /\ (forall (first : bool) (t : Z) (ls : list mterm), disciplined ls (mul_add_lines first t ls))
 /\ (forall (ls : list mterm), disciplined ls (mul_add_with_next_line ls))
 /\ (forall (a : av), disciplined a (invert_unsafe a))
 /\ (forall (a : av), disciplined a (invert a))
 /\ (forall (a : av), disciplined a (is_zero a))
 /\ (forall (a : av) (b : av), disciplined (a, b) (div_unsafe a b))
 /\ (forall (v : Z), disciplined tt (assign_constant v))
 /\ (forall (v : Z), disciplined tt (assign v))
 /\ (forall (a : Z), disciplined tt (assign_bit a))
 /\ (forall (a : av) (b : av), disciplined (a, b) (assert_equal a b))
 /\ (forall (a : av) (b : Z), disciplined a (assert_constant a b))
 /\ (forall (a : av), disciplined a (assert_bit a))
 /\ (forall (a : acond) (b : acond), disciplined (a, b) (and_ a b))
 /\ (forall (a : acond), disciplined a (not_ a))
 /\ (forall (a : acond) (b : acond), disciplined (a, b) (not_and a b))
 /\ (forall (a : acond) (b : acond), disciplined (a, b) (or_ a b))
 /\ (forall (a : acond) (b : acond), disciplined (a, b) (xor_ a b))
 /\ (forall (a : acond) (b : acond), disciplined (a, b) (xnor_ a b))
 /\ (forall (cond : acond) (a : av) (b : av), disciplined (cond, a, b) (bisec cond a b))
 /\ (forall (cond : acond) (a : acond) (b : acond), disciplined (cond, a, b) (bisec_cond cond a b))
 /\ (forall (a : acond), disciplined a (assert_true a))
 /\ (forall (a : acond), disciplined a (assert_false a))
 /\ (forall (a : acond), disciplined a (try_assert_false a))
 /\ (forall (bn : Z), disciplined tt (assign_nonleading_limb bn))
 /\ (forall (I0 : rinfo) (bn : Z), disciplined tt (assign_w_ceil_leading_limb I0 bn))
 /\ (forall (I0 : rinfo) (bn : Z), disciplined tt (assign_d_leading_limb I0 bn))
 /\ (forall x0 (limbs : list av), disciplined limbs (native_of x0 limbs))
 /\ (forall x0 (a : aint) (b : aint) (d : list av) (pos : nat), disciplined (a, b, d) (mul_column x0 a b d pos))
 /\ (forall x0 (u : av), disciplined u (mul_carry x0 u))
 /\ (forall x0 (a : aint) (b : aint) (d : list av) (rem : aint), disciplined (a, b, d, rem) (mul_equation_on_limbs x0 a b d rem))
 /\ (forall x0 (a : aint) (b : aint) (d_native : av) (rem : aint), disciplined (a, b, d_native, rem) (mul_equation_on_native x0 a b d_native rem))
 /\ (forall x0 (w : Z), disciplined tt (assign_w x0 w))
 /\ (forall x0 (d : Z), disciplined tt (assign_d x0 d))
 /\ (forall x0 (a : aint) (d : Z) (rem : Z) (ad : av) (arem : aint) (last : option av) (i : nat), disciplined (a, ad, arem, last) (reduce_step x0 a d rem ad arem last i))
 /\ (forall x0 (a : aint), disciplined a (reduce x0 a))
 /\ (forall x0 (a : aint), disciplined a (conditionally_reduce x0 a))
 /\ (forall x0 (a : aint) (b : aint), disciplined (a, b) (int_add x0 a b))
 /\ (forall x0 (times : Z), disciplined tt (pad_of x0 times))
 /\ (forall x0 (a : aint) (b : aint), disciplined (a, b) (int_sub x0 a b))
 /\ (forall x0 (a : aint), disciplined a (int_neg x0 a))
 /\ (forall x0 (a : aint) (b : aint), disciplined (a, b) (int_mul x0 a b))
 /\ (forall (a : aint), disciplined a (is_pure_zero a))
 /\ (forall x0 (a : aint), disciplined a (is_pure_w_modulus x0 a))
 /\ (forall x0 (a : aint), disciplined a (is_int_zero x0 a))
 /\ (forall x0 (a : aint) (b : aint), disciplined (a, b) (is_int_equal x0 a b))
 /\ (forall x0 (a : aint) (b : aint), disciplined (a, b) (int_div x0 a b))
 /\ (forall x0 (w : Z), disciplined tt (assign_int_constant x0 w))
 /\ (forall x0 (x : aint), disciplined x (int_unsafe_invert x0 x))
 /\ (forall x0 (a : aint) (b : aint), disciplined (a, b) (assert_int_equal x0 a b))
 /\ (forall x0 (a : aint), disciplined a (int_square x0 a))
 /\ (forall x0 (a : aint) (b : Z), disciplined a (int_mul_small_constant x0 a b))
 /\ (forall x0 (cond : acond) (a : aint) (b : aint), disciplined (cond, a, b) (bisec_int x0 cond a b))
 /\ (forall x0 (p : option (Z * Z)), disciplined tt (assign_constant_point x0 p))
 /\ (forall x0 x1 (x : aint) (y : aint), disciplined (x, y) (curve_sides x0 x1 x y))
 /\ (forall x0 x1 (p : option (Z * Z)), disciplined tt (assign_point x0 x1 p))
 /\ (forall x0 x1 (p : option (Z * Z)), disciplined tt (assign_non_zero_point x0 x1 p))
 /\ (forall x0, disciplined tt (assign_identity x0))
 /\ (forall x0 (cond : acond) (a : apoint) (b : apoint), disciplined (cond, a, b) (bisec_point x0 cond a b))
 /\ (forall x0 (cond : acond) (a : acurv) (b : acurv), disciplined (cond, a, b) (bisec_curvature x0 cond a b))
 /\ (forall x0 (cond : acond) (a : apointc) (b : apointc), disciplined (cond, a, b) (bisec_point_with_curvature x0 cond a b))
 /\ (forall x0 (l : aint) (ax : aint) (ay : aint) (bx : aint), disciplined (l, ax, ay, bx) (lambda_xy x0 l ax ay bx))
 /\ (forall x0 (lambda : acurv) (a : apoint) (b : apoint), disciplined (lambda, a, b) (lambda_to_point x0 lambda a b))
 /\ (forall x0 (a : apointc) (b : apoint), disciplined (a, b) (ecc_add x0 a b))
 /\ (forall x0 x1 (a : apointc), disciplined a (ecc_double x0 x1 a))
 /\ (forall x0 (a : apoint) (b : apoint), disciplined (a, b) (ecc_assert_equal x0 a b))
 /\ (forall x0 (a : apoint), disciplined a (ecc_neg x0 a))
 /\ (forall x0 (a : apoint), disciplined a (ecc_reduce x0 a))
 /\ (forall x0 (x : aint) (y : aint), disciplined (x, y) (curvature_of x0 x y))
 /\ (forall x0 (a : apoint), disciplined a (ecc_reduce_with_curvature x0 a))
 /\ (forall x0 (a : apoint), disciplined a (to_point_with_curvature x0 a))
 /\ (forall x0 (p : apoint), disciplined p (ecc_encode x0 p))
 /\ (forall x0 (p : aint) (sc : Z) (g : Z) (offset : Z), disciplined p (assign_cache_integer x0 p sc g offset))
 /\ (forall x0 (p : aint) (sc : av) (g : Z) (offset : Z), disciplined (p, sc) (assign_selected_integer x0 p sc g offset))
 /\ (forall x0 (p : apointc) (g : Z) (sc : Z), disciplined p (assign_cache_point x0 p g sc))
 /\ (forall x0 (p : apointc) (sc : av) (g : Z), disciplined (p, sc) (assign_selected_point x0 p sc g))
 /\ (forall x0 (lambda : aint) (a : anz) (b : anz), disciplined (lambda, a, b) (lambda_to_point_non_zero x0 lambda a b))
 /\ (forall x0 (a : anz) (b : anz), disciplined (a, b) (ecc_add_unsafe x0 a b))
 /\ (forall x0 (a : anz), disciplined a (ecc_double_unsafe x0 a))
 /\ (forall x0 (a : anz), disciplined a (ecc_neg_non_zero x0 a))
 /\ (forall x0 (a : anz), disciplined a (ecc_reduce_non_zero x0 a))
 /\ (forall x0 (cond : acond) (a : anz) (b : anz), disciplined (cond, a, b) (ecc_bisec_non_zero_point x0 cond a b))
 /\ (forall x0 (bit : acond) (cs : list anz), disciplined (bit, cs) (bisec_pairs x0 bit cs))
 /\ (forall x0 (candidates : list anz) (group_bits : list acond), disciplined (candidates, group_bits) (bisec_candidate_non_zero x0 candidates group_bits))
 /\ (forall (candidates : list anz) (group_bits : list acond), disciplined (candidates, group_bits) (pick_candidate_non_zero candidates group_bits))
 /\ (forall x0 (p : anz) (sc : av) (g : Z), disciplined (p, sc) (assign_selected_point_non_zero x0 p sc g))
 /\ (forall x0 (p : anz) (g : Z) (sc : Z), disciplined p (assign_cache_point_non_zero x0 p g sc))
 /\ (forall x0 (a : anz) (b : anz), disciplined (a, b) (ecc_assert_equal_non_zero x0 a b))
 /\ (forall (a : anz), disciplined a (ecc_non_zero_point_downgrade a))
 /\ (forall x0 (a : apoint) (b : anz), disciplined (a, b) (ecc_bisec_to_non_zero_point x0 a b))
 /\ (forall (W : nat) (bits : list acond), disciplined bits (to_windows W bits))
 /\ (forall (s_bn : Z) (st : av * list acond) (i : nat), disciplined st (native_step s_bn st i))
 /\ (forall (W : nat) (s : av), disciplined s (decompose_scalar_native W s))
 /\ (forall (two_inv : Z) (v : Z) (st : av * list acond) (j : nat), disciplined st (general_step two_inv v st j))
 /\ (forall (two_inv : Z) (l : av), disciplined l (general_limb two_inv l))
 /\ (forall (I0 : rinfo) (W : nat) (s : aint), disciplined s (decompose_scalar_general I0 W s)).
Proof. exact C55_gadgets_main. Qed.
Print Assumptions C55_gadgets.
(** The gadgets do run on live handles, and the notion is not trivial: a gadget given a handle to a cell
    where nothing was recorded ties it all the same, and is not disciplined when the handle is not declared. *)
Example C55_nonvacuous :
  let NM := bn256_fr in
  (exists a b c', (a <- assign_nonleading_limb 77 ;; b <- assign 5 ;; mret (a, b)) ctx_new = Ok ((a, b), c')
     /\ all_live c' (a, b) /\ copies_live c' /\ exists d c'', mul a b c' = Ok (d, c''))
  /\ ~ disciplined tt (assert_bit (mkAv (bcell 0 5) 0)).
Proof.
  split.
  - do 3 eexists. split; [vm_compute; reflexivity|]. split; [|split; [intros a b []|do 2 eexists; vm_compute; reflexivity]].
    repeat constructor; cbn; discriminate || lia.
  - intros K. destruct (K ctx_new tt _ ltac:(constructor) ltac:(intros a b []) ltac:(vm_compute; reflexivity)) as (C & _).
    destruct (C (bcell 0 5) (bcell 0 0)) as [[E _] _]; [cbn; auto|]. apply E. reflexivity.
Qed.

(** C55 for the recorder's own operations: rows of the base chip, range-checked values, cached and selected values. *)
Theorem C55_recorder :
  forall (NM : NMod),
    (forall pairs constant muls next, disciplined pairs (one_line pairs constant muls next))
 /\ (forall pairs tail constant muls next, disciplined (pairs, tail) (one_line_with_last pairs tail constant muls next))
 /\ (forall bn, disciplined tt (assign_common bn))
 /\ (forall bn k bits, disciplined tt (assign_limb bn k bits))
 /\ (forall v offset g sc, disciplined v (assign_cache_value v offset g sc))
 /\ (forall v offset g sc, disciplined sc (assign_selected_value v offset g sc)).
Proof. exact C55_recorder_main. Qed.
Print Assumptions C55_recorder.

(** C55 for the gadgets of fq12.rs that depend on the curve, with the nonresidue gadget of either curve. *)
Theorem C55_tower :
  forall (NM : NMod) (I : rinfo) (nonres : afq2 -> M afq2), nonres = bn_nonres I \/ nonres = bls_nonres I ->
    (forall (a : afq6) (b : afq6), disciplined (a, b) (fq6_mul I nonres a b))
 /\ (forall (a : afq6), disciplined a (fq6_square I nonres a))
 /\ (forall (a : afq6) (b1 : afq2), disciplined (a, b1) (fq6_mul_by_1 I nonres a b1))
 /\ (forall (a : afq6) (b0 : afq2) (b1 : afq2), disciplined (a, b0, b1) (fq6_mul_by_01 I nonres a b0 b1))
 /\ (forall (x : afq6), disciplined x (fq6_unsafe_invert I nonres x))
 /\ (forall (a : afq6), disciplined a (fq6_mul_by_nonresidue nonres a))
 /\ (forall (a : afq12) (b : afq12), disciplined (a, b) (fq12_mul I nonres a b))
 /\ (forall (a : afq12), disciplined a (fq12_square I nonres a))
 /\ (forall (x : afq12) (c0 : afq2) (c1 : afq2) (c4 : afq2), disciplined (x, c0, c1, c4) (fq12_mul_by_014 I nonres x c0 c1 c4))
 /\ (forall (x : afq12) (c0 : afq2) (c3 : afq2) (c4 : afq2), disciplined (x, c0, c3, c4) (fq12_mul_by_034 I nonres x c0 c3 c4))
 /\ (forall (a0 : afq2) (a1 : afq2), disciplined (a0, a1) (fp4_square I nonres a0 a1))
 /\ (forall (x : afq12), disciplined x (fq12_cyclotomic_square I nonres x))
 /\ (forall (x : afq12), disciplined x (fq12_unsafe_invert I nonres x)).
Proof. exact C55_tower_main. Qed.
Print Assumptions C55_tower.
Example C55_tower_nonvacuous : forall (NM : NMod) I (a b : afq12), disciplined (a, b) (fq12_mul I (bn_nonres I) a b) /\ disciplined (a, b) (fq12_mul I (bls_nonres I) a b).
Proof. intros. split; [apply (C55_tower NM I (bn_nonres I)); left|apply (C55_tower NM I (bls_nonres I)); right]; reflexivity. Qed.

(** C55 for the other gadgets of fq12.rs, for pairing_chip.rs, bn256_chip and bls12_381_chip up to the complete pairings, and for keccak_chip.rs. *)
Theorem C55_pairing_keccak :
  forall (NM : NMod),
    (forall I (x : afq2), disciplined x (fq2_reduce I x))
 /\ (forall I (x : afq2) (y : afq2), disciplined (x, y) (fq2_assert_equal I x y))
 /\ (forall I, disciplined tt (fq2_assign_zero I))
 /\ (forall I, disciplined tt (fq2_assign_one I))
 /\ (forall I (c : Z * Z), disciplined tt (fq2_assign_constant I c))
 /\ (forall I (a : afq2) (b : afq2), disciplined (a, b) (fq2_add I a b))
 /\ (forall I (a : afq2) (b : afq2), disciplined (a, b) (fq2_mul I a b))
 /\ (forall I (a : afq2) (b : afq2), disciplined (a, b) (fq2_sub I a b))
 /\ (forall I (a : afq2), disciplined a (fq2_double I a))
 /\ (forall I (a : afq2), disciplined a (fq2_square I a))
 /\ (forall I (a : afq2), disciplined a (fq2_neg I a))
 /\ (forall I (a : afq2), disciplined a (fq2_conjugate I a))
 /\ (forall I (x : afq2), disciplined x (fq2_unsafe_invert I x))
 /\ (forall I (x : afq6), disciplined x (fq6_reduce I x))
 /\ (forall I (x : afq6) (y : afq6), disciplined (x, y) (fq6_assert_equal I x y))
 /\ (forall I, disciplined tt (fq6_assign_zero I))
 /\ (forall I, disciplined tt (fq6_assign_one I))
 /\ (forall I (a : afq6) (b : afq6), disciplined (a, b) (fq6_add I a b))
 /\ (forall I (a : afq6) (b : afq6), disciplined (a, b) (fq6_sub I a b))
 /\ (forall I (a : afq6), disciplined a (fq6_double I a))
 /\ (forall I (a : afq6), disciplined a (fq6_neg I a))
 /\ (forall I (c : (Z * Z) * (Z * Z) * (Z * Z)), disciplined tt (fq6_assign_constant I c))
 /\ (forall I (x : afq12), disciplined x (fq12_reduce I x))
 /\ (forall I (x : afq12) (y : afq12), disciplined (x, y) (fq12_assert_eq I x y))
 /\ (forall I, disciplined tt (fq12_assign_zero I))
 /\ (forall I, disciplined tt (fq12_assign_one I))
 /\ (forall I (x : afq12), disciplined x (fq12_assert_one I x))
 /\ (forall I (a : afq12) (b : afq12), disciplined (a, b) (fq12_add I a b))
 /\ (forall I (a : afq12) (b : afq12), disciplined (a, b) (fq12_sub I a b))
 /\ (forall I (a : afq12), disciplined a (fq12_double I a))
 /\ (forall I (a : afq12), disciplined a (fq12_neg I a))
 /\ (forall I (x : afq12), disciplined x (fq12_conjugate I x))
 /\ (forall I (c : ((Z * Z) * (Z * Z) * (Z * Z)) * ((Z * Z) * (Z * Z) * (Z * Z))), disciplined tt (fq12_assign_constant I c))
 /\ (forall I (pt : ag2), disciplined pt (doubling_step I pt))
 /\ (forall I (pt : ag2) (pq : ag2a), disciplined (pt, pq) (addition_step I pt pq))
 /\ (forall I (g : ag2a), disciplined g (g2affine_to_g2 I g))
 /\ (forall I (g : ag2a), disciplined g (g2_neg I g))
 /\ (forall I (a : afq2), disciplined a (bn_nonres I a))
 /\ (forall I (x : afq2) (power : nat), disciplined x (bn_fq2_frobenius_map I x power))
 /\ (forall I (x : afq6) (power : nat), disciplined x (bn_fq6_frobenius_map I x power))
 /\ (forall I (x : afq12) (power : nat), disciplined x (bn_fq12_frobenius_map I x power))
 /\ (forall I (g2 : ag2a) (neg_g2 : ag2a) (r : ag2), disciplined (g2, neg_g2, r) (bn_prepare_loop I g2 neg_g2 r))
 /\ (forall I (g2 : ag2a), disciplined g2 (bn_prepare_g2 I g2))
 /\ (forall I (f : afq12) (k : acoeff) (p : apoint), disciplined (f, k, p) (bn_ell I f k p))
 /\ (forall I (terms : list (apoint * list acoeff)), disciplined terms (bn_multi_miller_loop I terms))
 /\ (forall I (f : afq12), disciplined f (bn_exp_by_x I f))
 /\ (forall I (f : afq12), disciplined f (bn_final_exponentiation I f))
 /\ (forall I (a : afq2), disciplined a (bls_nonres I a))
 /\ (forall I (x : afq2) (_power : nat), disciplined x (bls_fq2_frobenius_map I x _power))
 /\ (forall I (x : afq6) (power : nat), disciplined x (bls_fq6_frobenius_map I x power))
 /\ (forall I (x : afq12) (power : nat), disciplined x (bls_fq12_frobenius_map I x power))
 /\ (forall I (f : afq12) (k : acoeff) (p : apoint), disciplined (f, k, p) (bls_ell I f k p))
 /\ (forall I (f : afq12), disciplined f (bls_cycolotomic_exp I f))
 /\ (forall I (g2 : ag2a), disciplined g2 (bls_prepare_g2 I g2))
 /\ (forall I (terms : list (apoint * list acoeff)), disciplined terms (bls_multi_miller_loop I terms))
 /\ (forall I (f : afq12), disciplined f (bls_final_exponentiation I f))
 /\ (forall I (terms : list (apoint * ag2a)), disciplined terms (bn_pairing I terms))
 /\ (forall I (terms : list (apoint * ag2a)), disciplined terms (bn_check_pairing I terms))
 /\ (forall I (terms : list (apoint * ag2a)), disciplined terms (bls_pairing I terms))
 /\ (forall I (terms : list (apoint * ag2a)), disciplined terms (bls_check_pairing I terms))
 /\ (forall (a : list acond) (b : list acond), disciplined (a, b) (xor_lanes a b))
 /\ (disciplined tt (k_init))
 /\ (forall (st : kstate), disciplined st (theta st))
 /\ (forall (st : kstate), disciplined st (xi st))
 /\ (forall (st : kstate) (round : nat), disciplined st (iota st round))
 /\ (forall (st : kstate), disciplined st (permute st))
 /\ (forall (st : kstate) (input : list acond), disciplined (st, input) (absorb st input))
 /\ (forall (s_bn : Z) (st : av * list acond) (i : nat), disciplined st (u256_step s_bn st i))
 /\ (forall (s_bn : Z) (s : av), disciplined s (decompose_u256_with s_bn s))
 /\ (forall (s : av), disciplined s (decompose_scalar_as_u256_be s))
 /\ (forall (acc : av) (s : list acond), disciplined (acc, s) (compose_loop acc s))
 /\ (forall (s : list acond), disciplined s (compose_to_scalar_be s))
 /\ (forall (input : list (Z * av)), disciplined input (hash_with input))
 /\ (forall (input : list av), disciplined input (hash input)).
Proof. exact C55_pairing_keccak_main. Qed.
Print Assumptions C55_pairing_keccak.

(** C55 for multi-scalar multiplication, with or without the select chip, for native and foreign scalars.  The copy constraints recorded by the clones
    are merged into the context and tie live cells too. *)
Theorem C55_msm :
  forall (NM : NMod) (I : rinfo) b gen ra rl prefix points,
    (forall scalars, disciplined (points, scalars) (msm_native I b gen ra rl prefix points scalars))
 /\ (forall Is scalars, disciplined (points, scalars) (msm_general I Is b gen ra rl prefix points scalars)).
Proof. exact C55_msm_main. Qed.
Print Assumptions C55_msm.

(** Sequences, loops and early returns of disciplined programs are disciplined: a program may use its own handles and those it was given. *)
Theorem C55_compose :
  (forall X Y Z (HX : Handles X) (HY : Handles Y) (HZ : Handles Z) (a : X) (m : M Y) (k : Y -> M Z),
      disciplined a m -> (forall y, disciplined (a, y) (k y)) -> disciplined a (mbind m k))
 /\ (forall X Y (HX : Handles X) (HY : Handles Y) (a : X) (y : Y), incl (cells_of y) (cells_of a) -> disciplined a (mret y))
 /\ (forall X X' Y (HX : Handles X) (HX' : Handles X') (HY : Handles Y) (a : X) (b : X') (m : M Y),
      incl (cells_of b) (cells_of a) -> disciplined b m -> disciplined a m)
 /\ (forall X Y Z (HX : Handles X) (HY : Handles Y) (HZ : Handles Z) (a : X) (f : Y -> M Z) l,
      (forall y, disciplined (a, y) (f y)) -> disciplined (a, l) (mapM f l))
 /\ (forall X S Y (HX : Handles X) (HS : Handles S) (HY : Handles Y) (a : X) (f : S -> Y -> M S) s l,
      (forall s y, disciplined (a, s, y) (f s y)) -> disciplined (a, s, l) (foldM f s l))
 /\ (forall X Y Z (HX : Handles X) (HY : Handles Y) (HZ : Handles Z) (a : X) (m : M (uresult Y)) (k : Y -> M (uresult Z)),
      disciplined a m -> (forall y, disciplined (a, y) (k y)) -> disciplined a (ubind m k)).
Proof. exact C55_compose_main. Qed.
Print Assumptions C55_compose.

(** C39 without the condition on the handles: a disciplined program run on a fresh context, with base rows and the range rows fitting the chunks, is
    synthesised completely.  Missing: the last two conditions, as in C39_assign_all_partial. *)
Theorem C39_disciplined_partial :
  forall (NM : NMod) X (HX : Handles X) (m : M X) x c, program m -> disciplined tt m -> m ctx_new = Ok (x, c) ->
    (0 < base_h c)%nat -> (let chunks := (base_h c + 15) / 16 in range_h c <= chunks * 16 * chunks)%nat ->
    exists r, assign_all c = Ok r
      /\ (forall x, r_adv r x = get_adv (c_mem c) x)
      /\ (forall x, r_fix r x = get_fix (c_mem c) x)
      /\ r_copies r = rev (c_perms c).
Proof. exact C39_disciplined_partial_main. Qed.
Print Assumptions C39_disciplined_partial.
(** A program on any number of points and scalars, and a small one whose rows fit. *)
Example C39_disciplined_nonvacuous : forall (NM : NMod) I ps ss,
  let m := (pts <- mapM (fun v => assign_point I 3 (Some v)) ps ;; scs <- mapM assign ss ;;
            r <- msm_native I 3 (Some (1, 2)) (Some (1, 2)) (Some (1, 2)) None pts scs ;; h <- hash scs ;; mret (fst r, h)) in
  program m /\ disciplined tt m.
Proof.
  intros. split.
  - apply p_bind; [apply p_gadget; Progs.pga|intros]. apply p_bind; [apply p_gadget; Progs.pga|intros]. apply p_bind; [apply Progs.pg_msm_native|intros].
    apply p_bind; [apply p_gadget, ProgsMore.pg_hash|intros]. apply p_gadget; Progs.pga.
  - apply Handles.J_disciplined. intros W. unfold m. Handles.jb; [HandGadgets.hoa|intros pts]. Handles.jb; [HandGadgets.hoa|intros scs].
    Handles.jb; [apply HandMore.ho_msm_native; HandGadgets.hrel|intros r]. HandGadgets.hoa.
Qed.
Example C39_disciplined_runs :
  let NM := bn256_fr in
  let m := (a <- assign_nonleading_limb 77 ;; b <- assign 5 ;; mul a b) in
  program m /\ disciplined tt m /\ exists x c, m ctx_new = Ok (x, c) /\ (0 < base_h c)%nat
    /\ (let chunks := (base_h c + 15) / 16 in range_h c <= chunks * 16 * chunks)%nat.
Proof.
  cbv zeta. split; [apply p_gadget; Progs.pga|]. split; [generalize bn256_fr as NM; intros NM; apply Handles.J_disciplined; intros W; HandGadgets.hoa|].
  do 2 eexists. split; [vm_compute; reflexivity|]. vm_compute. lia.
Qed.

(** C54.  Under the conditions of C39_disciplined_partial synthesis into the configured columns succeeds: every copy constraint ties two columns that
    configure enabled for equality. *)
Theorem C54_synthesis_succeeds :
  forall (NM : NMod) X (HX : Handles X) (m : M X) x c, program m -> disciplined tt m -> m ctx_new = Ok (x, c) ->
    (0 < base_h c)%nat -> (let chunks := (base_h c + 15) / 16 in range_h c <= chunks * 16 * chunks)%nat ->
    let '(g, s) := configure cs_new in exists F w, synthesise g s c = Ok (F, w).
Proof. exact C54_synthesis_succeeds_main. Qed.
Print Assumptions C54_synthesis_succeeds.

