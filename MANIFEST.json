{
 "claims": [
  {
   "property": "C01",
   "status": "proved",
   "theorems": [
    "C01_native_arithmetic_sound"
   ],
   "note": ""
  },
  {
   "property": "C02",
   "status": "proved",
   "theorems": [
    "C02_linear_combination_sound"
   ],
   "note": ""
  },
  {
   "property": "C03",
   "status": "proved",
   "theorems": [
    "C03_dot_product_sound"
   ],
   "note": ""
  },
  {
   "property": "C04",
   "status": "partial",
   "theorems": [
    "C04_boolean_gadgets_sound",
    "C04_assign_bit_partial"
   ],
   "note": "All boolean gadgets and assert_bit proved; the assign_bit clause is false of the code (C51) and proved only for assignments that give both cells of a bit row the same value."
  },
  {
   "property": "C05",
   "status": "proved",
   "theorems": [
    "C05_inverse_and_zero_test_sound"
   ],
   "note": ""
  },
  {
   "property": "C06",
   "status": "proved",
   "theorems": [
    "C06_selection_sound"
   ],
   "note": ""
  },
  {
   "property": "C07",
   "status": "proved",
   "theorems": [
    "C07_assertions_bind",
    "C07_assertions_accept"
   ],
   "note": ""
  },
  {
   "property": "C08",
   "status": "proved",
   "theorems": [
    "C08_native_gadgets_accept",
    "C08_good_witness_satisfies"
   ],
   "note": ""
  },
  {
   "property": "C09",
   "status": "proved",
   "theorems": [
    "C09_gadgets_only_append",
    "C09_programs_only_append",
    "C09_all_gadgets_are_programs"
   ],
   "note": "For the native gadgets one by one, and for every program put together from recorder operations and multi-scalar multiplications, of any length; C09_all_gadgets_are_programs lists the gadgets of all chips."
  },
  {
   "property": "C10",
   "status": "proved",
   "theorems": [
    "C10_range_checks_sound",
    "C10_range_checks_complete"
   ],
   "note": ""
  },
  {
   "property": "C11",
   "status": "proved",
   "theorems": [
    "C11_parameter_checks"
   ],
   "note": ""
  },
  {
   "property": "C12",
   "status": "proved",
   "theorems": [
    "C12_limb_splitting"
   ],
   "note": ""
  },
  {
   "property": "C13",
   "status": "proved",
   "theorems": [
    "C13_subtraction_padding"
   ],
   "note": ""
  },
  {
   "property": "C14",
   "status": "proved",
   "theorems": [
    "C14_assigned_integers"
   ],
   "note": ""
  },
  {
   "property": "C15",
   "status": "proved",
   "theorems": [
    "C15_reduce"
   ],
   "note": ""
  },
  {
   "property": "C16",
   "status": "proved",
   "theorems": [
    "C16_add_sub_neg_small"
   ],
   "note": ""
  },
  {
   "property": "C17",
   "status": "proved",
   "theorems": [
    "C17_int_mul"
   ],
   "note": ""
  },
  {
   "property": "C18",
   "status": "proved",
   "theorems": [
    "C18_int_div"
   ],
   "note": ""
  },
  {
   "property": "C19",
   "status": "proved",
   "theorems": [
    "C19_int_zero_and_equality_tests"
   ],
   "note": ""
  },
  {
   "property": "C20",
   "status": "proved",
   "theorems": [
    "C20_assert_int_equal"
   ],
   "note": ""
  },
  {
   "property": "C21",
   "status": "proved",
   "theorems": [
    "C21_selection_and_constants"
   ],
   "note": ""
  },
  {
   "property": "C22",
   "status": "proved",
   "theorems": [
    "C22_honest_programs_accepted"
   ],
   "note": "Side condition (w_bits w + 13) mod 108 <> 0 holds of every supported field (C22_fields) and only excludes the moduli of C50."
  },
  {
   "property": "C23",
   "status": "partial",
   "theorems": [
    "C23_mul_by_small_constant_usable_partial",
    "C23_mul_by_zero_usable_refuted"
   ],
   "note": "False of the code for the constant 0 (the _refuted theorem: the result cannot be negated or subtracted, both panic); proved for every positive constant."
  },
  {
   "property": "C24",
   "status": "proved",
   "theorems": [
    "C24_programs_refine_modular_arithmetic"
   ],
   "note": ""
  },
  {
   "property": "C25",
   "status": "proved",
   "theorems": [
    "C25_base",
    "C25_integer",
    "C25_ecc",
    "C25_msm",
    "C25_tower",
    "C25_pairing",
    "C25_keccak"
   ],
   "note": "For every gadget of the base, range, select, integer, ecc, scalar, keccak, tower and pairing chips and the two complete multi-scalar multiplications, and for every program sequencing them: any two completing runs from contexts of the same shape, with arbitrary different witness values, give the same fixed columns, selector marks, copy constraints, offsets, heights and handle positions."
  },
  {
   "property": "C26",
   "status": "proved",
   "theorems": [
    "C26_points_on_curve",
    "C26_honest_points_accepted",
    "C26_identity_flag_refuted"
   ],
   "note": "As stated (flag 1 or coordinates on the curve) proved for every satisfying assignment. C26_identity_flag_refuted shows in addition that the flag need not be a bit (consequence of C51)."
  },
  {
   "property": "C27",
   "status": "proved",
   "theorems": [
    "C27_group_law_sound",
    "C27_group_law_honest"
   ],
   "note": ""
  },
  {
   "property": "C28",
   "status": "proved",
   "theorems": [
    "C28_unsafe_ops_sound",
    "C28_unsafe_ops_honest"
   ],
   "note": ""
  },
  {
   "property": "C29",
   "status": "partial",
   "theorems": [
    "C29_degenerate_operands_retryable_refuted"
   ],
   "note": "False of the code: on every pair of degenerate honest operands the operation panics, and it never returns an error (the _refuted theorem, general in the operands, with a concrete run)."
  },
  {
   "property": "C30",
   "status": "proved",
   "theorems": [
    "C30_point_equality_exact"
   ],
   "note": ""
  },
  {
   "property": "C31",
   "status": "partial",
   "theorems": [
    "C31_encoding_determines_point_partial",
    "C31_encoding_determines_point_refuted"
   ],
   "note": "Proved for base fields of three limbs; false of four-limb bls12-381 (the _refuted theorem gives two points of the curve with the same honest encoding)."
  },
  {
   "property": "C32",
   "status": "partial",
   "theorems": [
    "C32_encoding_is_a_function_partial",
    "C32_encoding_is_a_function_refuted"
   ],
   "note": "False of the code (the _refuted theorem: two satisfying assignments of one circuit, same point, different encodings); the honest encoding is a function of the point (_partial)."
  },
  {
   "property": "C33",
   "status": "partial",
   "theorems": [
    "C33_decomposition_honest",
    "C33_decomposition_partial",
    "C33_returned_cells_are_bits_refuted"
   ],
   "note": "Congruence of the native decomposition proved for every satisfying assignment; that the returned cells are bits is false of the code (the _refuted theorem, from C51) and proved, with the integer-scalar case, for assignments giving both cells of an assign_bit row the same value."
  },
  {
   "property": "C34",
   "status": "partial",
   "theorems": [
    "C34_msm_native_refuted",
    "C34_msm_native_partial",
    "C34_msm_general_partial"
   ],
   "note": "False of the code as stated: C34_msm_native_refuted exhibits a satisfying assignment of the circuit of 2*(1,2) on bn256 whose result is not on the curve (a bit row with digit 2, C51). The _partial theorems prove it for all assignments giving both cells of an assign_bit row the same value (C51 shows this is not forced). For identity inputs the code substitutes a prover-chosen curve point with a scalar that is only 0 modulo r, so the exact sum needs r to annihilate the whole curve group; the theorem says so."
  },
  {
   "property": "C35",
   "status": "partial",
   "theorems": [
    "C35_msm_select_native_refuted",
    "C35_msm_select_native_partial",
    "C35_msm_select_general_partial"
   ],
   "note": "False of the code as stated: C35_msm_select_native_refuted exhibits two calls on bn256 and a satisfying assignment in which the second takes a table entry of the first and returns a wrong point of the curve (a bit row with two different cells, C51). The _partial theorem proves it for every call with a positive prefix in any history of calls on one context, for assignments giving both cells of an assign_bit row the same value. Missing besides: the first call (prefix 0), where table key 0 is also the key of every unwritten row (C36_key_zero_refuted shows the selected value is then free)."
  },
  {
   "property": "C36",
   "status": "partial",
   "theorems": [
    "C36_selection_partial",
    "C36_key_zero_refuted"
   ],
   "note": "Proved for every key other than 0; false for key 0 (limb 0 of candidate 0 of group 0), see the _refuted theorem."
  },
  {
   "property": "C37",
   "status": "partial",
   "theorems": [
    "C37_merge_partial",
    "C37_merge_order_refuted"
   ],
   "note": "C37_merge_partial: for every program built from the recorder's operations and complete MSMs, started from a context whose heights cover the records, offsets and the base and select heights cover all rows recorded, copies and marks survive merging. Missing (false of the code): the merged range height; C37_merge_order_refuted exhibits the defect max(select_height, other.range_height) in native_scalar_ecc_chip.rs:87 / general_scalar_ecc_chip.rs:88."
  },
  {
   "property": "C38",
   "status": "proved",
   "theorems": [
    "C38_schedule_independent",
    "C38_every_schedule_completes"
   ],
   "note": "C38_schedule_independent: every concurrent run of all windows that completes, whatever the interleaving of single stores, agrees with the sequential run in results, copies, offsets, heights and every table cell. C38_every_schedule_completes: if the sequential run completes then every interleaving of the windows' stores is a concurrent run that completes with the same result. Stores and reads of single cells are the atomic steps; data-race undefined behaviour of the unsynchronised Rust stores is outside the model."
  },
  {
   "property": "C39",
   "status": "partial",
   "theorems": [
    "C39_disciplined_partial",
    "C39_assign_all_partial",
    "C39_assign_all_refuted"
   ],
   "note": "C39_assign_all_partial: synthesis visits every recorded row, writes the recorded values and one copy per recorded constraint, when the thread count does not exceed the base height and the range rows lie below the chunks derived from the base height. C39_assign_all_refuted: the range chip's chunking uses base_height (context.rs:411-421) so range rows can be left out. C39_disciplined_partial: for programs that only use handles of gadgets (C55) the copy constraints need no assumption."
  },
  {
   "property": "C40",
   "status": "proved",
   "theorems": [
    "C40_permutation_sound",
    "C40_permutation_honest"
   ],
   "note": "Any prime n, no bit-consistency needed: the state bits are assumed in the hypothesis, as in the property."
  },
  {
   "property": "C41",
   "status": "partial",
   "theorems": [
    "C41_output_forgeable",
    "C41_hash_refuted",
    "C41_hash_partial",
    "C41_hash_honest"
   ],
   "note": "False of the code as stated: C41_output_forgeable shows that for all inputs, prior circuits and odd primes the circuit accepts the output (2^256-1)/2 (bit rows with 1/2 in the returned cell, C51), and C41_hash_refuted that this is not a digest of any encoding of the input (bls12-381 scalar field). C41_hash_partial proves the claim for assignments giving both cells of an assign_bit row the same value; C41_hash_honest covers honest runs, any number of inputs."
  },
  {
   "property": "C42",
   "status": "partial",
   "theorems": [
    "C42_hash_determined_refuted"
   ],
   "note": "False of the code (the _refuted theorem: bn256 scalar field, one input 0: the encodings 0 and n both satisfy the circuit, with bit-consistent assignments, and the outputs differ)."
  },
  {
   "property": "C43",
   "status": "proved",
   "theorems": [
    "C43_fq2_gadgets",
    "C43_fq6_gadgets",
    "C43_fq12_gadgets",
    "C43_towers_are_fields"
   ],
   "note": "Every gadget of fq12.rs, for any prime w and both towers: soundness and honest runs (honest runs under the size condition of C23, met by both base fields)."
  },
  {
   "property": "C44",
   "status": "partial",
   "theorems": [
    "C44_bn256_frobenius",
    "C44_bls12_381_frobenius_partial",
    "C44_bls12_381_frobenius_refuted"
   ],
   "note": "bn256: all exponents, all three levels. bls12-381: the gadgets ignore the exponent and always raise to the power p (proved), so the claim fails for exponent 2 (refuted with a run); the repository only passes 1."
  },
  {
   "property": "C45",
   "status": "proved",
   "theorems": [
    "C45_cyclotomic_square"
   ],
   "note": "Both curves, soundness and honest runs."
  },
  {
   "property": "C46",
   "status": "proved",
   "theorems": [
    "C46_bn256_final_exponentiation",
    "C46_bls12_381_final_exponentiation"
   ],
   "note": "Both curves: exponent (p^12-1)/r for bn256, 3(p^12-1)/r for bls12-381 (3 prime to r), soundness and honest runs, every non-zero element; zero is unsatisfiable."
  },
  {
   "property": "C47",
   "status": "proved",
   "theorems": [
    "C47_doubling_step",
    "C47_addition_step"
   ],
   "note": "Any prime modulus; the factors of the line are explicit (4YZ^3, 2Z')."
  },
  {
   "property": "C48",
   "status": "proved",
   "theorems": [
    "C48_bn256_miller_loop",
    "C48_bls12_381_miller_loop"
   ],
   "note": "The Miller loop of bls12-381 has no check that the lists are used up: longer lists are accepted and their tail ignored (prepared lists have the exact length)."
  },
  {
   "property": "C49",
   "status": "proved",
   "theorems": [
    "C49_keys_never_collide",
    "C49_other_gadgets_are_quiet",
    "C49_more_gadgets_are_quiet"
   ],
   "note": "One context. Two ecc contexts created over the same circuit context both start at prefix 0 and do share keys; the property's claim is about one context."
  },
  {
   "property": "C50",
   "status": "partial",
   "theorems": [
    "C50_multiplication_complete_partial",
    "C50_multiplication_complete_refuted"
   ],
   "note": "False of the code (the _refuted theorem: the accepted 311-bit prime 1237*2^300+1); proved for every accepted modulus with (w_bits w + 13) mod 108 <> 0, which includes all supported fields."
  },
  {
   "property": "C51",
   "status": "partial",
   "theorems": [
    "C51_assign_bit_forces_a_bit_refuted"
   ],
   "note": "False of the code: the _refuted theorem exhibits, for every field element x, a satisfying assignment in which the cell returned by assign_bit holds x. C04_assign_bit_partial is what does hold."
  },
  {
   "property": "C52",
   "status": "proved",
   "theorems": [
    "C52_bn256_pairing",
    "C52_bn256_check_pairing",
    "C52_bls12_381_pairing",
    "C52_bls12_381_check_pairing"
   ],
   "note": "Lines of the pairing are specified in affine coordinates; points whose computation meets a vertical line (never a point of order r other than the identity) are outside the value statement, the identity flags are forced to zero. Bilinearity of the pairing itself is not proved."
  },
  {
   "property": "C53",
   "status": "proved",
   "theorems": [
    "C53_msm_native_honest",
    "C53_msm_general_honest"
   ],
   "note": "For every call that returns. When a call returns is C57; unlucky auxiliary points make the code panic. Moduli in the residue class excluded by C50 are excluded here too; the exact sum assumes, as C34 does, that the scalar modulus annihilates the points."
  },
  {
   "property": "C54",
   "status": "proved",
   "theorems": [
    "C54_halo2_sound",
    "C54_halo2_complete",
    "C54_range_table",
    "C54_synthesis_succeeds"
   ],
   "note": "Synthesis returns for every program on gadgets' own handles that has base rows and meets the chunk condition of C39 (C54_synthesis_succeeds)."
  },
  {
   "property": "C55",
   "status": "proved",
   "theorems": [
    "C55_gadgets",
    "C55_recorder",
    "C55_tower",
    "C55_pairing_keccak",
    "C55_msm",
    "C55_compose"
   ],
   "note": "Tower gadgets for the nonresidue of bn256 and of bls12-381. Programs: C55_compose, C39_disciplined_partial, C54_synthesis_succeeds."
  },
  {
   "property": "C56",
   "status": "proved",
   "theorems": [
    "C56_gadgets",
    "C56_detects",
    "C56_halo2_sound",
    "C56_halo2_complete",
    "C56_synthesis_succeeds"
   ],
   "note": "The select chip's own gadgets are of course excepted. Completeness under the chunk condition of C39."
  },
  {
   "property": "C57",
   "status": "proved",
   "theorems": [
    "C57_msm_native_completes",
    "C57_msm_general_completes"
   ],
   "note": "The degenerate cases are exactly the additions listed in SpecSchedule.msm_schedule (equal or opposite points); with the select chip at most 2^20 points per call and a prefix below 2^28."
  },
  {
   "property": "C58",
   "status": "proved",
   "theorems": [
    "C58_read_back"
   ],
   "note": ""
  },
  {
   "property": "C59",
   "status": "proved",
   "theorems": [
    "C59_ecc_mul_native",
    "C59_ecc_mul_general"
   ],
   "note": "Moduli in the residue class excluded by C50 are excluded; the scalar modulus is assumed to annihilate the point. What a dishonest prover can do is C34/C35."
  },
  {
   "property": "C60",
   "status": "partial",
   "theorems": [
    "C60_shared_recorder_refuted"
   ],
   "note": "Refuted, with honest bit rows: each context starts its prefix at 0 (context.rs:196-201), so calls of two contexts use the same table keys. What holds: C35_msm_select_*_partial for one context, C34_msm_*_partial for any number of contexts without the select chip, and C53/C57 (honest runs) for any number of contexts."
  },
  {
   "property": "C61",
   "status": "proved",
   "theorems": [
    "C61_point_programs_sound",
    "C61_point_programs_honest"
   ],
   "note": "Honest runs: moduli in the residue class excluded by C50 are excluded; the order passed to ecc_double is odd, as the code asserts."
  },
  {
   "property": "C62",
   "status": "proved",
   "theorems": [
    "C62_one_key",
    "C62_end_to_end_sound",
    "C62_end_to_end_complete"
   ],
   "note": "Completeness under the chunk condition of C39 (range rows at most chunks*16*chunks), which is false in general (C39); moduli in the residue class excluded by C50 are excluded; conditions of selections are constants (assign_bit is broken, C51)."
  },
  {
   "property": "C63",
   "status": "proved",
   "theorems": [
    "C63_bn256_end_to_end_sound",
    "C63_bn256_end_to_end_complete",
    "C63_bls12_381_end_to_end_sound",
    "C63_bls12_381_end_to_end_complete"
   ],
   "note": "The chunk condition of C39 is proved for these circuits, not assumed. The lines of the ate pairing are those of C52."
  },
  {
   "property": "C64",
   "status": "proved",
   "theorems": [
    "C64_point_rows",
    "C64_pairing_rows",
    "C64_point_synthesis",
    "C64_integer_rows",
    "C64_integer_synthesis",
    "C64_small_circuits_panic"
   ],
   "note": ""
  },
  {
   "property": "C65",
   "status": "proved",
   "theorems": [
    "C65_integers_sound",
    "C65_integers_complete"
   ],
   "note": "Completeness under the chunk condition of C39, which C64 proves for circuits with enough base rows and which fails on some small ones (C39)."
  }
 ]
}