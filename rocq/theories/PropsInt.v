(** PROPERTIES C10-C24 and C50: range checks and foreign-field integers
    (src/range_info.rs, src/circuit/range_chip.rs, src/circuit/integer_chip.rs).

    [range_info_new w = Ok I]: the parameter checks accept the foreign modulus [w]
    over the native modulus [nmod].  [int_wf w f x] (SpecInt.v): the limbs of [x]
    are within their bounds and its native cell is its value modulo [nmod], when
    handles are read with [f]; [at_ A] reads them in the assignment [A] and
    [a_val] reads the recorded witness.  [int_value f x] is the integer the limbs
    stand for.  [sound], [accepts], [good] and [valid] are as in PropsNative.v;
    [int_ok w c x valid] says that [x] is recorded in [c] with a well-formed
    witness (overflow at most 16, canonical if the overflow is 1). *)
From Verif Require Import Prelude FieldZ Circuit Context Spec Logic BaseChip RangeInfo RangeChip IntegerChip
  SpecInt SpecProg IntProg Moduli Prime311 Fields IntCases IntMain.
(** C10, soundness.  In every satisfying assignment a range-checked cell holds an
    integer below two to the declared number of bits. *)
Theorem C10_range_checks_sound :
  forall (NM : NMod), prime nmod ->
    (2 ^ 108 < nmod ->
       forall bn, sound (assign_common bn) (fun A r => 0 <= A⟦r⟧ < 2 ^ 18)
               /\ sound (assign_nonleading_limb bn) (fun A r => 0 <= A⟦r⟧ < 2 ^ 108)
               /\ forall k b, 0 <= b <= 108 -> sound (assign_limb bn k b) (fun A r => 0 <= A⟦r⟧ < 2 ^ b))
 /\ forall w I, range_info_new w = Ok I ->
       forall bn, sound (assign_w_ceil_leading_limb I bn) (fun A r => 0 <= A⟦r⟧ < 2 ^ (w_bits w mod 108))
               /\ sound (assign_d_leading_limb I bn) (fun A r => 0 <= A⟦r⟧ < 2 ^ ((w_bits w + 13) mod 108)).
Proof. exact C10_range_checks_sound_main. Qed.
Print Assumptions C10_range_checks_sound.
(** Non-vacuous: a 51-bit leading limb in four chunks, over bn256. *)
Example C10_case : exists r c', (@assign_limb bn256_fr 1234567890123456 4 51) ctx_new = Ok (r, c')
  /\ @satisfies bn256_fr c' (honest c') /\ (honest c')⟦r⟧ = 1234567890123456.
Proof. exact C10_case_main. Qed.

(** C10, completeness.  Every integer below the bound is accepted: from any state the
    run succeeds, returns a recorded handle with that value, and keeps the recorded
    witness good.  The bit widths are those the library uses: up to 18, or 36 to 108. *)
Theorem C10_range_checks_complete :
  forall (NM : NMod), prime nmod -> 2 ^ 108 < nmod -> forall c, wf c ->
    (forall bn, 0 <= bn < 2 ^ 18 -> accepts c (assign_common bn) (fun r c' => valid c' r /\ a_val r = bn))
 /\ (forall bn, 0 <= bn < 2 ^ 108 -> accepts c (assign_nonleading_limb bn) (fun r c' => valid c' r /\ a_val r = bn))
 /\ (forall bn k b, 0 <= bn < 2 ^ b -> (1 <= k)%nat -> b <= 18 * Z.of_nat k -> 0 <= b <= 18 \/ 36 <= b <= 108 ->
       accepts c (assign_limb bn k b) (fun r c' => valid c' r /\ a_val r = bn))
 /\ forall w I, range_info_new w = Ok I ->
      (forall bn, 0 <= bn < 2 ^ (w_bits w mod 108) ->
         accepts c (assign_w_ceil_leading_limb I bn) (fun r c' => valid c' r /\ a_val r = bn))
   /\ (forall bn, 0 <= bn < 2 ^ ((w_bits w + 13) mod 108) ->
         accepts c (assign_d_leading_limb I bn) (fun r c' => valid c' r /\ a_val r = bn)).
Proof. exact C10_range_checks_complete_main. Qed.
Print Assumptions C10_range_checks_complete.

(** C11.  The three supported foreign fields are accepted over bn256 Fr with the
    documented parameters (limbs, width of the quotient, limbs checked modulo
    2^108 in the three equations); and for every pair of moduli that is accepted the limb layout covers
    the modulus and the checked residues determine the integers of each equation. *)
Theorem C11_parameter_checks :
    (exists I, @range_info_new bn256_fr bn256_fq_p = Ok I /\ ri_limbs I = 3%nat /\ ri_d_bits I = 267
       /\ (ri_pure I, ri_reduce I, ri_mul I) = (1, 1, 3)%nat)
 /\ (exists I, @range_info_new bn256_fr bls12_381_fr_p = Ok I /\ ri_limbs I = 3%nat /\ ri_d_bits I = 268
       /\ (ri_pure I, ri_reduce I, ri_mul I) = (1, 1, 3)%nat)
 /\ (exists I, @range_info_new bn256_fr bls12_381_fq_p = Ok I /\ ri_limbs I = 4%nat /\ ri_d_bits I = 394
       /\ (ri_pure I, ri_reduce I, ri_mul I) = (2, 2, 5)%nat)
 /\ forall (NM : NMod) w I, range_info_new w = Ok I ->
      ri_w I = w /\ Z.of_nat (ri_limbs I) = n_limbs w /\ 3 <= n_limbs w
   /\ 2 ^ (w_bits w - 1) < w <= 2 ^ w_bits w /\ w_bits w <= 108 * n_limbs w < w_bits w + 108
   /\ ri_w_limbs I = bn_to_limb_le_n (ri_limbs I) w
   /\ 2 ^ w_bits w <= Z.lcm nmod (2 ^ (108 * Z.of_nat (ri_pure I)))
   /\ (2 ^ 18 - 1) * w + 2 ^ w_bits w <= Z.lcm nmod (2 ^ (108 * Z.of_nat (ri_reduce I)))
   /\ (63 * 2 ^ w_bits w - 1) * (63 * 2 ^ w_bits w - 1) < Z.lcm nmod (2 ^ (108 * Z.of_nat (ri_mul I)))
   /\ (2 ^ (w_bits w + 13) - 1) * w + 2 ^ w_bits w <= Z.lcm nmod (2 ^ (108 * Z.of_nat (ri_mul I))).
Proof. exact C11_parameter_checks_main. Qed.
Print Assumptions C11_parameter_checks.

(** C12.  Splitting an integer below 2^(108k) into k limbs loses nothing; the field
    conversions are the reduction modulo the field, the identity on canonical
    integers; reading the limbs back ([get_w_bn]) gives the integer they stand for. *)
Theorem C12_limb_splitting :
    (forall k x, length (bn_to_limb_le k x) = k
        /\ Forall (fun l => 0 <= l < 2 ^ 108) (bn_to_limb_le k x)
        /\ (0 <= x < 2 ^ (108 * Z.of_nat k) -> weighted (bn_to_limb_le k x) = x))
 /\ (forall (NM : NMod), 0 < nmod -> forall x,
        0 <= fof x < nmod /\ fof x = x mod nmod /\ (0 <= x < nmod -> fof x = x))
 /\ (forall (NM : NMod) w I, range_info_new w = Ok I -> forall x, length (i_limbs x) = ri_limbs I ->
        get_w_bn I x = int_value a_val x).
Proof. exact C12_limb_splitting_main. Qed.
Print Assumptions C12_limb_splitting.

(** C13.  For every overflow count 1..63 the padding vector is a multiple of the
    modulus, every limb is at least the largest value a limb of an operand with that
    overflow can take, and it is less than one unit more. *)
Theorem C13_subtraction_padding :
  forall (NM : NMod) w I, range_info_new w = Ok I -> forall t, 1 <= t <= 63 ->
    exists us, nth_error (ri_pad I) (Z.to_nat t) = Some (Some us)
    /\ Z.of_nat (length us) = n_limbs w
    /\ (w | weighted us)
    /\ Forall (fun u => t * 2 ^ 108 <= u < (t + 1) * 2 ^ 108) (removelast us)
    /\ t * 2 ^ (w_bits w mod 108) <= last us 0 < (t + 1) * 2 ^ (w_bits w mod 108)
    /\ t * 2 ^ w_bits w <= weighted us < t * 2 ^ w_bits w + w.
Proof. exact C13_subtraction_padding_main. Qed.
Print Assumptions C13_subtraction_padding.

(** C14.  A freshly assigned integer is well formed in every satisfying assignment;
    the honest run accepts and stores every integer below w_ceil = 2^w_bits. *)
Theorem C14_assigned_integers :
  forall (NM : NMod) w I, prime nmod -> range_info_new w = Ok I -> forall x,
    sound (assign_w I x) (fun A r => int_wf w (at_ A) r /\ i_times r = 1)
 /\ (0 <= x < 2 ^ w_bits w -> forall c, wf c ->
      accepts c (assign_w I x) (fun r c' => int_recorded w c' r valid /\ i_times r = 1 /\ int_value a_val r = x)).
Proof. exact C14_assigned_integers_main. Qed.
Print Assumptions C14_assigned_integers.
(** Non-vacuous: over bn256, the integers q-1 and the non-canonical q. *)
Example C14_case : exists r c', @run_prog bn256_fr bn_fq_info [bn256_fq_p-1; bn256_fq_p]
    [IReduce 0] ctx_new = Ok (r, c')
  /\ @satisfies bn256_fr c' (honest c')
  /\ map (fun x => int_value (at_ (honest c')) x mod bn256_fq_p) (fst (snd r)) = [bn256_fq_p - 1; 0; bn256_fq_p - 1]
  /\ map (at_ (honest c')) (snd (snd r)) = [].
Proof. exact C14_case_main. Qed.

(** C15.  Reduction gives an integer of overflow 1 with the same residue, in every
    satisfying assignment; the honest run succeeds and gives the canonical
    representative (an argument of overflow 1 is returned as it is, so it must be
    canonical already for that). *)
Theorem C15_reduce :
  forall (NM : NMod) w I, prime nmod -> prime w -> range_info_new w = Ok I -> forall x,
    sound (reduce I x) (fun A r => int_wf w (at_ A) x ->
        int_wf w (at_ A) r /\ i_times r = 1 /\ int_value (at_ A) r mod w = int_value (at_ A) x mod w)
 /\ sound (conditionally_reduce I x) (fun A r => int_wf w (at_ A) x ->
        int_wf w (at_ A) r /\ i_times r <= 16 /\ int_value (at_ A) r mod w = int_value (at_ A) x mod w)
 /\ (forall c, wf c -> int_recorded w c x valid -> (i_times x = 1 -> int_value a_val x < w) ->
      accepts c (reduce I x) (fun r c' => int_ok w c' r valid /\ i_times r = 1
                                          /\ int_value a_val r = int_value a_val x mod w)).
Proof. exact C15_reduce_main. Qed.
Print Assumptions C15_reduce.

(** C16.  Addition, subtraction, negation and multiplication by a positive small
    constant: well-formed result, right residue, overflow at most 16, in every
    satisfying assignment.  (For the constant 0 see C23.) *)
Theorem C16_add_sub_neg_small :
  forall (NM : NMod) w I, prime nmod -> prime w -> range_info_new w = Ok I -> forall a b k,
    sound (int_add I a b) (fun A r => int_wf w (at_ A) a -> int_wf w (at_ A) b -> int_wf w (at_ A) r /\ i_times r <= 16
        /\ int_value (at_ A) r mod w = (int_value (at_ A) a + int_value (at_ A) b) mod w)
 /\ sound (int_sub I a b) (fun A r => int_wf w (at_ A) a -> int_wf w (at_ A) b -> int_wf w (at_ A) r /\ i_times r <= 16
        /\ int_value (at_ A) r mod w = (int_value (at_ A) a - int_value (at_ A) b) mod w)
 /\ sound (int_neg I a) (fun A r => int_wf w (at_ A) a -> int_wf w (at_ A) r /\ i_times r <= 16
        /\ int_value (at_ A) r mod w = (- int_value (at_ A) a) mod w)
 /\ (1 <= k -> sound (int_mul_small_constant I a k) (fun A r => int_wf w (at_ A) a -> int_wf w (at_ A) r /\ i_times r <= 16
        /\ int_value (at_ A) r mod w = (int_value (at_ A) a * k) mod w)).
Proof. exact C16_add_sub_neg_small_main. Qed.
Print Assumptions C16_add_sub_neg_small.
(** Non-vacuous: ((a + b) - b), -(a - b), 7 * a run over bn256 and are satisfied by the recorded witness. *)
Example C16_case : exists r c', @run_prog bn256_fr bn_fq_info [bn256_fq_p-1; 5]
    [IAdd 0 1; ISub 2 1; INeg 3; IMulSmall 4 7] ctx_new = Ok (r, c')
  /\ @satisfies bn256_fr c' (honest c')
  /\ map (fun x => int_value (at_ (honest c')) x mod bn256_fq_p) (fst (snd r)) = [bn256_fq_p - 1; 5; 4; bn256_fq_p - 1; 1; 7]
  /\ map (at_ (honest c')) (snd (snd r)) = [].
Proof. exact C16_case_main. Qed.

(** C17.  Multiplication: in every satisfying assignment the result has the residue of the product. *)
Theorem C17_int_mul :
  forall (NM : NMod) w I, prime nmod -> prime w -> range_info_new w = Ok I -> forall a b,
    sound (int_mul I a b) (fun A r => int_wf w (at_ A) a -> int_wf w (at_ A) b -> int_wf w (at_ A) r /\ i_times r = 1
        /\ int_value (at_ A) r mod w = (int_value (at_ A) a * int_value (at_ A) b) mod w)
 /\ sound (int_square I a) (fun A r => int_wf w (at_ A) a -> int_wf w (at_ A) r /\ i_times r = 1
        /\ int_value (at_ A) r mod w = (int_value (at_ A) a * int_value (at_ A) a) mod w).
Proof. exact C17_int_mul_main. Qed.
Print Assumptions C17_int_mul.
(** Non-vacuous: (q-1)*(q-1) = 1 over bn256. *)
Example C17_case : exists r c', @run_prog bn256_fr bn_fq_info [bn256_fq_p-1; bn256_fq_p-1]
    [IMul 0 1; ISquare 2] ctx_new = Ok (r, c')
  /\ @satisfies bn256_fr c' (honest c')
  /\ map (fun x => int_value (at_ (honest c')) x mod bn256_fq_p) (fst (snd r)) = [bn256_fq_p - 1; bn256_fq_p - 1; 1; 1]
  /\ map (at_ (honest c')) (snd (snd r)) = [].
Proof. exact C17_case_main. Qed.

(** C18.  Division: in every satisfying assignment the flag is 1 exactly when the
    divisor is 0 modulo w, and otherwise the quotient times the divisor is the
    dividend; [int_unsafe_invert] forces its operand to be invertible and returns
    the inverse. *)
Theorem C18_int_div :
  forall (NM : NMod) w I, prime nmod -> prime w -> range_info_new w = Ok I -> forall a b,
    sound (int_div I a b) (fun A r => int_wf w (at_ A) a -> int_wf w (at_ A) b ->
        int_wf w (at_ A) (snd r) /\ i_times (snd r) = 1
        /\ A⟦fst r⟧ = Z.b2z (int_value (at_ A) b mod w =? 0)
        /\ (int_value (at_ A) b mod w <> 0 ->
            (int_value (at_ A) b * int_value (at_ A) (snd r)) mod w = int_value (at_ A) a mod w))
 /\ sound (int_unsafe_invert I a) (fun A r => int_wf w (at_ A) a ->
        int_value (at_ A) a mod w <> 0 /\ int_wf w (at_ A) r /\ i_times r = 1
        /\ (int_value (at_ A) a * int_value (at_ A) r) mod w = 1).
Proof. exact C18_int_div_main. Qed.
Print Assumptions C18_int_div.
(** Non-vacuous: 6/3 = 2 with flag 0, and 1/3, over bn256 (a division by zero is in C22_case). *)
Example C18_case : exists r c', @run_prog bn256_fr bn_fq_info [6; 3]
    [IDiv 0 1; IInvert 1] ctx_new = Ok (r, c')
  /\ @satisfies bn256_fr c' (honest c')
  /\ map (fun x => int_value (at_ (honest c')) x mod bn256_fq_p) (fst (snd r)) = [6; 3; 2; 14592161914559516814830937163504850059130874104865215775126025263096817472389]
  /\ map (at_ (honest c')) (snd (snd r)) = [0].
Proof. exact C18_case_main. Qed.

(** C19.  The zero and equality tests are exact on residues in every satisfying
    assignment, whichever representative the prover chose. *)
Theorem C19_int_zero_and_equality_tests :
  forall (NM : NMod) w I, prime nmod -> prime w -> range_info_new w = Ok I -> forall a b,
    sound (is_int_zero I a) (fun A r => int_wf w (at_ A) a -> A⟦r⟧ = Z.b2z (int_value (at_ A) a mod w =? 0))
 /\ sound (is_int_equal I a b) (fun A r => int_wf w (at_ A) a -> int_wf w (at_ A) b ->
        A⟦r⟧ = Z.b2z (int_value (at_ A) a mod w =? int_value (at_ A) b mod w)).
Proof. exact C19_int_zero_and_equality_tests_main. Qed.
Print Assumptions C19_int_zero_and_equality_tests.
(** Non-vacuous: both representatives 0 and q of zero are recognised, over bn256. *)
Example C19_case : exists r c', @run_prog bn256_fr bn_fq_info [0; bn256_fq_p; 3]
    [IIsZero 0; IIsZero 1; IIsZero 2] ctx_new = Ok (r, c')
  /\ @satisfies bn256_fr c' (honest c')
  /\ map (fun x => int_value (at_ (honest c')) x mod bn256_fq_p) (fst (snd r)) = [0; 0; 3]
  /\ map (at_ (honest c')) (snd (snd r)) = [1; 1; 0].
Proof. exact C19_case_main. Qed.
Example C19_case2 : exists r c', @run_prog bn256_fr bn_fq_info [4; 3]
    [IIsEqual 0 1; IIsEqual 0 0] ctx_new = Ok (r, c')
  /\ @satisfies bn256_fr c' (honest c')
  /\ map (fun x => int_value (at_ (honest c')) x mod bn256_fq_p) (fst (snd r)) = [4; 3]
  /\ map (at_ (honest c')) (snd (snd r)) = [0; 1].
Proof. exact C19_case2_main. Qed.

(** C20.  The equality assertion can only be satisfied by congruent operands, and the
    honest run succeeds whenever they are. *)
Theorem C20_assert_int_equal :
  forall (NM : NMod) w I, prime nmod -> prime w -> range_info_new w = Ok I -> forall a b,
    sound (assert_int_equal I a b) (fun A _ => int_wf w (at_ A) a -> int_wf w (at_ A) b ->
        int_value (at_ A) a mod w = int_value (at_ A) b mod w)
 /\ (forall c, wf c -> int_ok w c a valid -> int_ok w c b valid ->
       int_value a_val a mod w = int_value a_val b mod w -> accepts c (assert_int_equal I a b) (fun _ _ => True)).
Proof. exact C20_assert_int_equal_main. Qed.
Print Assumptions C20_assert_int_equal.
(** Non-vacuous: (q-1) + (-0), whose limbs stand for a larger integer, is asserted equal to q-1. *)
Example C20_case : exists r c', @run_prog bn256_fr bn_fq_info [bn256_fq_p-1]
    [IConst 0; INeg 1; IAdd 0 2; IAssertEqual 0 3] ctx_new = Ok (r, c')
  /\ @satisfies bn256_fr c' (honest c')
  /\ map (fun x => int_value (at_ (honest c')) x mod bn256_fq_p) (fst (snd r)) = [bn256_fq_p - 1; 0; 0; bn256_fq_p - 1]
  /\ map (at_ (honest c')) (snd (snd r)) = [].
Proof. exact C20_case_main. Qed.

(** C21.  Selection returns exactly the chosen operand's value and stays well formed;
    a constant is pinned to the given integer; in every satisfying assignment. *)
Theorem C21_selection_and_constants :
  forall (NM : NMod) w I, prime nmod -> prime w -> range_info_new w = Ok I -> forall c a b k,
    sound (bisec_int I c a b) (fun A r => int_wf w (at_ A) a -> int_wf w (at_ A) b ->
        forall cond, A⟦c⟧ = Z.b2z cond ->
        int_wf w (at_ A) r /\ i_times r = Z.max (i_times a) (i_times b)
        /\ int_value (at_ A) r = if cond then int_value (at_ A) a else int_value (at_ A) b)
 /\ (0 <= k < w -> sound (assign_int_constant I k) (fun A r =>
        int_wf w (at_ A) r /\ i_times r = 1 /\ int_value (at_ A) r = k)).
Proof. exact C21_selection_and_constants_main. Qed.
Print Assumptions C21_selection_and_constants.
Example C21_case : exists r c', @run_prog bn256_fr bn_fq_info [5]
    [IConst 7; IIsZero 0; ISelect 0 0 1] ctx_new = Ok (r, c')
  /\ @satisfies bn256_fr c' (honest c')
  /\ map (fun x => int_value (at_ (honest c')) x mod bn256_fq_p) (fst (snd r)) = [5; 7; 7]
  /\ map (at_ (honest c')) (snd (snd r)) = [0].
Proof. exact C21_case_main. Qed.

(** C22.  Every straight-line program of integer operations that makes sense on its
    canonical inputs (no missing register, no false assertion, no inverse of zero;
    small constants 1..15) runs from any state without a panic and its recorded
    witness satisfies every emitted constraint; the registers then represent a
    result of the program over the residues.  [(w_bits w + 13) mod 108 <> 0] holds of
    every supported field and excludes the moduli of C50. *)
Theorem C22_honest_programs_accepted :
  forall (NM : NMod) w I, prime nmod -> prime w -> range_info_new w = Ok I -> (w_bits w + 13) mod 108 <> 0 ->
  forall inputs prog, Forall (fun x => 0 <= x < w) inputs -> Forall (iop_ok w) prog -> ican w prog (inputs, []) ->
  forall c, wf c ->
    accepts c (run_prog I inputs prog) (fun r c' => exists s', isteps w prog (inputs, []) s'
      /\ Forall2 (fun x v => int_ok w c' x valid /\ int_value a_val x mod w = v) (fst (snd r)) (fst s')
      /\ Forall2 (fun x v => valid c' x /\ a_val x = Z.b2z v) (snd (snd r)) (snd s')).
Proof. exact C22_honest_programs_accepted_main. Qed.
Print Assumptions C22_honest_programs_accepted.
(** The side condition holds of the supported fields. *)
Example C22_fields : (w_bits bn256_fq_p + 13) mod 108 <> 0 /\ (w_bits bls12_381_fr_p + 13) mod 108 <> 0
  /\ (w_bits bls12_381_fq_p + 13) mod 108 <> 0.
Proof. repeat split; discriminate. Qed.
(** Non-vacuous: a program using most operations, one division by zero among them. *)
Example C22_case :
  let prog := [IAdd 0 1; ISub 0 2; IMul 2 3; INeg 4; IMulSmall 5 15; IReduce 6; ISub 1 1; IIsZero 8; IIsEqual 3 3;
               IAssertEqual 8 8; IInvert 0; ISquare 0; IConst 4; IDiv 1 0; IDiv 0 8; ISelect 3 10 9] in
  Forall (iop_ok bn256_fq_p) prog /\ ican bn256_fq_p prog ([bn256_fq_p - 1; 3], []).
Proof. exact C22_case_main. Qed.

(** C23, what holds: for a positive constant the result can be used in every later
    operation (it satisfies the hypotheses of C22's operations).  Missing: the
    constant 0, for which the property is false, see below. *)
Theorem C23_mul_by_small_constant_usable_partial :
  forall (NM : NMod) w I, prime nmod -> prime w -> range_info_new w = Ok I -> forall a k c, wf c ->
    int_ok w c a valid -> 1 <= k < 16 ->
    accepts c (int_mul_small_constant I a k) (fun r c' => int_ok w c' r valid
       /\ int_value a_val r mod w = (int_value a_val a * k) mod w).
Proof. exact C23_mul_by_small_constant_usable_partial_main. Qed.
Print Assumptions C23_mul_by_small_constant_usable_partial.

(** C23 is false of the code.  Multiplying by the accepted constant 0 gives an integer
    with overflow count 0; negating it or subtracting it panics (there is no padding
    vector for 0), although the circuit so far is satisfied and the value is fine. *)
Theorem C23_mul_by_zero_usable_refuted :
  exists a r c, (a <- @assign_w bn256_fr bn_fq_info 5 ;; r <- @int_mul_small_constant bn256_fr bn_fq_info a 0 ;; mret (a, r)) ctx_new
                  = Ok ((a, r), c)
    /\ @satisfies bn256_fr c (honest c) /\ int_value (at_ (honest c)) r = 0
    /\ @int_neg bn256_fr bn_fq_info r c = Panic /\ @int_sub bn256_fr bn_fq_info a r c = Panic.
Proof. exact C23_mul_by_zero_usable_refuted_main. Qed.
Print Assumptions C23_mul_by_zero_usable_refuted.

(** C24.  In every satisfying assignment of the circuit of any straight-line program,
    the registers represent a result of running the program over the residues modulo
    w from the residues of the inputs (unique up to the quotients of divisions by
    zero); in particular asserted equalities hold and inverted values are non-zero. *)
Theorem C24_programs_refine_modular_arithmetic :
  forall (NM : NMod) w I, prime nmod -> prime w -> range_info_new w = Ok I ->
  forall inputs prog, Forall (iop_ok w) prog ->
    sound (run_prog I inputs prog) (fun A r =>
      length (fst r) = length inputs /\ Forall (int_wf w (at_ A)) (fst r)
      /\ exists s', isteps w prog (map (fun x => int_value (at_ A) x mod w) (fst r), []) s'
      /\ Forall2 (fun x v => int_wf w (at_ A) x /\ int_value (at_ A) x mod w = v) (fst (snd r)) (fst s')
      /\ Forall2 (fun x v => A⟦x⟧ = Z.b2z v) (snd (snd r)) (snd s')).
Proof. exact C24_programs_refine_modular_arithmetic_main. Qed.
Print Assumptions C24_programs_refine_modular_arithmetic.
(** Non-vacuous: such a program runs over bn256 and its recorded witness satisfies the circuit. *)
Example C24_case : exists r c', @run_prog bn256_fr bn_fq_info [7; 3]
    [IAdd 0 1; IMul 0 2; IDiv 3 1; IIsEqual 0 0; ISelect 1 3 4; IAssertEqual 3 5] ctx_new = Ok (r, c')
  /\ @satisfies bn256_fr c' (honest c')
  /\ map (fun x => int_value (at_ (honest c')) x mod bn256_fq_p) (fst (snd r)) = [7; 3; 10; 70; 14592161914559516814830937163504850059130874104865215775126025263096817472412; 70]
  /\ map (at_ (honest c')) (snd (snd r)) = [0; 1].
Proof. exact C24_case_main. Qed.

(** C50, what holds: when (w_bits w + 13) mod 108 <> 0 multiplication accepts every
    honest witness.  Missing: accepted moduli for which that number is 0, for which
    the property is false, see below. *)
Theorem C50_multiplication_complete_partial :
  forall (NM : NMod) w I, prime nmod -> prime w -> range_info_new w = Ok I -> (w_bits w + 13) mod 108 <> 0 ->
  forall c a b, wf c -> int_recorded w c a valid -> int_recorded w c b valid ->
    accepts c (int_mul I a b) (fun r c' => int_ok w c' r valid
      /\ int_value a_val r = (int_value a_val a * int_value a_val b) mod w).
Proof. exact C50_multiplication_complete_partial_main. Qed.
Print Assumptions C50_multiplication_complete_partial.

(** C50 is false of the code.  The 311-bit prime [w311] = 1237 * 2^300 + 1 passes every
    parameter check over bn256 Fr, but the quotient of a multiplication then has
    324 = 3 * 108 bits and its leading limb is checked against the width 324 mod 108 = 0
    instead of 108: multiplying w-1 by itself emits a circuit that no assignment
    holding the two operands satisfies. *)
Theorem C50_multiplication_complete_refuted :
  exists w I, prime w /\ @range_info_new bn256_fr w = Ok I /\
  exists a c, @good bn256_fr c /\ @int_ok bn256_fr w c a (@valid bn256_fr) /\ int_value a_val a = w - 1 /\
  exists r c', @int_mul bn256_fr I a a c = Ok (r, c')
    /\ forall A, @satisfies bn256_fr c' A -> agrees c A -> False.
Proof. exact C50_multiplication_complete_refuted_main. Qed.
Print Assumptions C50_multiplication_complete_refuted.

