{"id": "C01", "title": "Native arithmetic gadgets are sound", "statement": "In every assignment that satisfies the circuit, the cell returned by add, add_constant, sub, mul, mul_add_constant and mul_add holds exactly the corresponding field expression of the values of the operand cells.", "quantifier": "all native primes, all contexts reached by any earlier calls, all operand cells and constants, all satisfying assignments", "why_tests_cant": "Tests run only the honest prover; soundness speaks about every assignment of field elements to advice cells that satisfies the circuit, including ones no honest run writes.", "anchors": ["src/circuit/base_chip.rs::add,sub,mul,mul_add,mul_add_constant,add_constant", "src/context.rs::one_line,one_line_with_last"]}
{"id": "C02", "title": "Linear combinations of any length are sound", "statement": "In every satisfying assignment the cell returned by sum_with_constant holds constant + sum(coeff_i * elem_i), whatever the number of terms (including the chunked path for five or more terms).", "quantifier": "all term lists of any positive length, all satisfying assignments", "why_tests_cant": "Term lists have unbounded length and the chunking path depends on it.", "anchors": ["src/circuit/base_chip.rs::sum_with_constant,sum_with_constant_in_one_line"]}
{"id": "C03", "title": "Multi-line dot products are sound", "statement": "In every satisfying assignment the cell returned by mul_add_with_next_line holds sum(a_i*b_i + c_i*coeff_i), for any positive number of terms.", "quantifier": "all non-empty lists of terms, all satisfying assignments", "why_tests_cant": "The value is accumulated through the next-row column; only quantifying over all assignments shows the chaining cannot be cheated.", "anchors": ["src/circuit/base_chip.rs::mul_add_with_next_line"]}
{"id": "C04", "title": "Boolean gadgets compute boolean functions", "statement": "If the operand cells hold bits then and, or, xor, xnor, not, not_and and bisec_cond return the corresponding boolean value as a bit, in every satisfying assignment; assign_bit and assert_bit force 0 or 1.", "quantifier": "all satisfying assignments, all contexts", "why_tests_cant": "Tests run only the honest prover; soundness speaks about every assignment of field elements to advice cells that satisfies the circuit, including ones no honest run writes.", "anchors": ["src/circuit/base_chip.rs::and,or,xor,xnor,not,not_and,assign_bit,assert_bit,bisec_cond"]}
{"id": "C05", "title": "Zero test and inverse are exact", "statement": "In every satisfying assignment the flag returned by is_zero/invert is 1 if the operand is 0 and 0 otherwise, and the inverse cell multiplies the operand to 1 when it is non-zero; invert_unsafe and div_unsafe cells satisfy a*b=1 and b*c=a.", "quantifier": "all field elements, all satisfying assignments, every prime native field", "why_tests_cant": "Tests run only the honest prover; soundness speaks about every assignment of field elements to advice cells that satisfies the circuit, including ones no honest run writes.", "anchors": ["src/circuit/base_chip.rs::invert,is_zero,invert_unsafe,div_unsafe"]}
{"id": "C06", "title": "Conditional selection is exact", "statement": "In every satisfying assignment, if the condition cell holds a bit then bisec returns the first operand when it is 1 and the second when it is 0.", "quantifier": "all operand values and satisfying assignments", "why_tests_cant": "Tests run only the honest prover; soundness speaks about every assignment of field elements to advice cells that satisfies the circuit, including ones no honest run writes.", "anchors": ["src/circuit/base_chip.rs::bisec,bisec_cond"]}
{"id": "C07", "title": "Equality and constant assertions bind", "statement": "A circuit containing assert_equal(a,b), assert_constant(a,v), assert_true, assert_false or assign_constant can only be satisfied when the stated equality holds between the cells; the honest assignment satisfies it whenever the equality holds of the witness.", "quantifier": "all satisfying assignments; all witnesses", "why_tests_cant": "Tests run only the honest prover; soundness speaks about every assignment of field elements to advice cells that satisfies the circuit, including ones no honest run writes.", "anchors": ["src/circuit/base_chip.rs::assert_equal,assert_constant,assert_true,assert_false,assign_constant"]}
{"id": "C08", "title": "Native gadgets accept every honest witness", "statement": "Every native gadget, run on cells whose recorded witness values are arbitrary field elements, succeeds without panicking (except the documented unwrap of an inverse of zero and failed assertions) and the recorded witness satisfies all emitted constraints.", "quantifier": "all witness values, all contexts", "why_tests_cant": "The space of field elements cannot be enumerated; a gadget can reject a rare value.", "anchors": ["src/circuit/base_chip.rs", "src/context.rs::one_line"]}
{"id": "C09", "title": "Gadgets only append constraints", "statement": "Any gadget call leaves every earlier row, fixed value, copy constraint and recorded witness value unchanged; an assignment satisfying the circuit after the call satisfied the circuit before it.", "quantifier": "all call histories", "why_tests_cant": "It is a statement about all interleavings of calls and all earlier contexts.", "anchors": ["src/context.rs::one_line,one_line_with_last,assign_range_value,assign_cache_value,assign_select_value"]}
{"id": "C10", "title": "Range checks are exact", "statement": "A cell returned by assign_common, assign_nonleading_limb, assign_w_ceil_leading_limb or assign_d_leading_limb holds, in every satisfying assignment, an integer below two to the declared number of bits; conversely every such integer is accepted with its recorded decomposition.", "quantifier": "all bit widths accepted (0..=18 and 36..=108), all values, all satisfying assignments", "why_tests_cant": "Tests run only the honest prover; soundness speaks about every assignment of field elements to advice cells that satisfies the circuit, including ones no honest run writes.", "anchors": ["src/circuit/range_chip.rs::configure,init_table,assign_common,assign_nonleading_limb,assign_w_ceil_leading_limb,assign_d_leading_limb", "src/context.rs::assign_range_value"]}
{"id": "C11", "title": "Supported field pairs pass the parameter checks", "statement": "Building the range parameters succeeds for bn256 Fq, bls12-381 Fr and bls12-381 Fq over bn256 Fr, and yields the documented limb counts; whenever it succeeds for any pair of moduli the limb layout covers the modulus.", "quantifier": "all pairs of moduli (w, n); three concrete pairs", "why_tests_cant": "The existing test only prints the structure; the arithmetic side conditions are stated for all moduli.", "anchors": ["src/range_info.rs::new,pre_check,d_bits,bits_to_leading_bits_and_decompose"]}
{"id": "C12", "title": "Limb splitting is lossless", "statement": "Splitting an integer below 2^(108*limbs) into limbs and recombining gives it back, each limb is below 2^108, and bn_to_field/field_to_bn are inverse on canonical integers (bn_to_field reduces modulo the field).", "quantifier": "all integers, all limb counts", "why_tests_cant": "Unbounded integers.", "anchors": ["src/range_info.rs::bn_to_limb_le,bn_to_limb_le_n", "src/utils.rs::bn_to_field,field_to_bn", "src/circuit/integer_chip.rs::get_w_bn"]}
{"id": "C13", "title": "Subtraction padding is a multiple of the modulus that dominates every limb", "statement": "For every times value 1..63 the padding vector used by int_sub/int_neg is a multiple of w, every limb is at least times*2^108 (resp. leading bound) so no limb of the difference can wrap, and stays below (times+1) units.", "quantifier": "all moduli accepted by the parameter checks, all times values", "why_tests_cant": "Concerns every accepted modulus and every limb value.", "anchors": ["src/range_info.rs::find_w_modulus_of_ceil_times", "src/circuit/integer_chip.rs::int_sub,int_neg"]}
{"id": "C14", "title": "Assigned foreign-field integers are well formed", "statement": "In every satisfying assignment the integer returned by assign_w has limbs below 2^108 (leading limb below its width), value below w_ceil and a native cell congruent to the value; for the honest prover its value is the given integer whenever that is below w_ceil.", "quantifier": "all integers, all satisfying assignments", "why_tests_cant": "Tests run only the honest prover; soundness speaks about every assignment of field elements to advice cells that satisfies the circuit, including ones no honest run writes.", "anchors": ["src/circuit/integer_chip.rs::assign_w,assign_d"]}
{"id": "C15", "title": "Reduction preserves the residue", "statement": "In every satisfying assignment reduce returns a well-formed integer of overflow 1 congruent modulo w to its argument; the honest run does not panic, satisfies the constraints and returns the canonical representative when a reduction happens.", "quantifier": "all well-formed integers with overflow count below 64, all satisfying assignments", "why_tests_cant": "Tests run only the honest prover; soundness speaks about every assignment of field elements to advice cells that satisfies the circuit, including ones no honest run writes.", "anchors": ["src/circuit/integer_chip.rs::reduce,conditionally_reduce"]}
{"id": "C16", "title": "Foreign-field add, sub, neg and small-constant multiples are sound", "statement": "In every satisfying assignment int_add, int_sub, int_neg and int_mul_small_constant return a well-formed integer whose value is congruent modulo w to the operation on the operand values, with an overflow count of at most 16.", "quantifier": "all well-formed operands, all satisfying assignments, all accepted (w, n)", "why_tests_cant": "Tests run only the honest prover; soundness speaks about every assignment of field elements to advice cells that satisfies the circuit, including ones no honest run writes.", "anchors": ["src/circuit/integer_chip.rs::int_add,int_sub,int_neg,int_mul_small_constant"]}
{"id": "C17", "title": "Foreign-field multiplication is sound", "statement": "In every satisfying assignment int_mul (and int_square) returns a well-formed integer congruent modulo w to the product of the operands, although only a few limbs and the native residue are checked.", "quantifier": "all well-formed operands with overflow below 64, all satisfying assignments, all (w, n) accepted by the parameter checks", "why_tests_cant": "The argument needs the Chinese remainder theorem over all integers in range and all cheating quotients, remainders and carries.", "anchors": ["src/circuit/integer_chip.rs::int_mul,int_square,add_constraints_for_mul_equation_on_limbs,add_constraints_for_mul_equation_on_native"]}
{"id": "C18", "title": "Foreign-field division is sound", "statement": "In every satisfying assignment int_div returns a flag that is 1 iff the divisor is 0 modulo w, and otherwise a quotient c with b*c congruent to a; int_unsafe_invert can only be satisfied by a non-zero operand and returns its inverse.", "quantifier": "all well-formed operands, all satisfying assignments", "why_tests_cant": "Tests run only the honest prover; soundness speaks about every assignment of field elements to advice cells that satisfies the circuit, including ones no honest run writes.", "anchors": ["src/circuit/integer_chip.rs::int_div,int_unsafe_invert"]}
{"id": "C19", "title": "Foreign-field zero and equality tests are exact", "statement": "In every satisfying assignment is_int_zero is 1 iff the value is 0 modulo w and is_int_equal is 1 iff the values are congruent, whichever of the representatives 0 or w the prover chose.", "quantifier": "all well-formed operands, all satisfying assignments", "why_tests_cant": "Tests run only the honest prover; soundness speaks about every assignment of field elements to advice cells that satisfies the circuit, including ones no honest run writes.", "anchors": ["src/circuit/integer_chip.rs::is_int_zero,is_int_equal,is_pure_zero,is_pure_w_modulus"]}
{"id": "C20", "title": "Foreign-field equality assertion is exact", "statement": "A circuit with assert_int_equal(a,b) is satisfiable only if a and b are congruent modulo w, and the honest prover succeeds whenever they are.", "quantifier": "all well-formed operands, all satisfying assignments", "why_tests_cant": "Tests run only the honest prover; soundness speaks about every assignment of field elements to advice cells that satisfies the circuit, including ones no honest run writes.", "anchors": ["src/circuit/integer_chip.rs::assert_int_equal"]}
{"id": "C21", "title": "Foreign-field selection and constants are exact", "statement": "bisec_int returns the chosen operand's value and stays well formed; assign_int_constant is pinned to the given constant in every satisfying assignment.", "quantifier": "all operands and constants, all satisfying assignments", "why_tests_cant": "Tests run only the honest prover; soundness speaks about every assignment of field elements to advice cells that satisfies the circuit, including ones no honest run writes.", "anchors": ["src/circuit/integer_chip.rs::bisec_int,assign_int_constant"]}
{"id": "C22", "title": "Foreign-field operations accept every honest witness", "statement": "For canonical inputs no sequence of int_add, int_sub, int_neg, int_mul, int_div, reduce, bisec_int, is_int_zero, is_int_equal and int_mul_small_constant with a positive constant panics, and the recorded witness satisfies every emitted constraint.", "quantifier": "all straight-line programs of any length over all canonical inputs", "why_tests_cant": "Unbounded programs and value-dependent assertions (exact division by limb modulus, big-integer subtraction underflow).", "anchors": ["src/circuit/integer_chip.rs"]}
{"id": "C23", "title": "Multiplying by the constant zero keeps the integer usable", "statement": "The result of int_mul_small_constant can be used as an operand of any later integer operation for every constant it accepts.", "quantifier": "all accepted constants 0..15 and following operations", "why_tests_cant": "The failing constant is a corner the tests do not use.", "anchors": ["src/circuit/integer_chip.rs::int_mul_small_constant,int_sub,int_neg"]}
{"id": "C24", "title": "Integer programs refine modular arithmetic", "statement": "For every straight-line program of foreign-field operations, in every satisfying assignment every register is congruent modulo w to the value obtained by evaluating the program over Z/w on the inputs.", "quantifier": "all programs of any length, all inputs, all satisfying assignments", "why_tests_cant": "Unbounded programs and adversarial assignments.", "anchors": ["src/circuit/integer_chip.rs"]}
{"id": "C25", "title": "Circuit shape does not depend on the witness", "statement": "Two runs of the same gadget program on different witness values that both complete emit identical fixed columns, copy constraints, offsets and returned cell positions, so one verifying key serves all witnesses.", "quantifier": "all programs, all pairs of witnesses", "why_tests_cant": "Relational property over pairs of runs.", "anchors": ["src/circuit/base_chip.rs", "src/circuit/integer_chip.rs", "src/circuit/ecc_chip.rs", "src/context.rs"]}
{"id": "C26", "title": "Points assigned with checks are on the curve", "statement": "In every satisfying assignment assign_point yields either the identity flag or coordinates on y^2 = x^3 + b; assign_non_zero_point yields coordinates on the curve.", "quantifier": "all satisfying assignments, all supported curve constants", "why_tests_cant": "Tests run only the honest prover; soundness speaks about every assignment of field elements to advice cells that satisfies the circuit, including ones no honest run writes.", "anchors": ["src/circuit/ecc_chip.rs::assign_point,assign_non_zero_point"]}
{"id": "C27", "title": "Complete addition and doubling follow the group law", "statement": "In every satisfying assignment ecc_add, ecc_double and ecc_neg return the affine group-law result, including identity operands, equal operands, opposite operands.", "quantifier": "all curve points incl. identity, all satisfying assignments", "why_tests_cant": "Tests run only the honest prover; soundness speaks about every assignment of field elements to advice cells that satisfies the circuit, including ones no honest run writes.", "anchors": ["src/circuit/ecc_chip.rs::ecc_add,ecc_double,ecc_neg,lambda_to_point,to_point_with_curvature"]}
{"id": "C28", "title": "Unsafe addition and doubling are sound", "statement": "In every satisfying assignment ecc_add_unsafe and ecc_double_unsafe return the chord/tangent result and their operands do not have equal x (resp. zero y).", "quantifier": "all non-zero points, all satisfying assignments", "why_tests_cant": "Tests run only the honest prover; soundness speaks about every assignment of field elements to advice cells that satisfies the circuit, including ones no honest run writes.", "anchors": ["src/circuit/ecc_chip.rs::ecc_add_unsafe,ecc_double_unsafe"]}
{"id": "C29", "title": "Unsafe addition reports degenerate operands as a retryable error", "statement": "When the witness operands have the same x coordinate (or y = 0 for doubling) the operation returns an UnsafeError the caller can retry on rather than aborting.", "quantifier": "all witnesses", "why_tests_cant": "Degenerate random points occur with negligible probability in tests.", "anchors": ["src/circuit/ecc_chip.rs::ecc_add_unsafe,ecc_double_unsafe", "src/circuit/base_chip.rs::try_assert_false"]}
{"id": "C30", "title": "Point equality assertion is exact", "statement": "ecc_assert_equal is satisfiable only if both points are the identity or have congruent coordinates, and is satisfied by the honest prover in that case.", "quantifier": "all points, all satisfying assignments", "why_tests_cant": "Tests run only the honest prover; soundness speaks about every assignment of field elements to advice cells that satisfies the circuit, including ones no honest run writes.", "anchors": ["src/circuit/ecc_chip.rs::ecc_assert_equal"]}
{"id": "C31", "title": "Point encoding determines the point", "statement": "Two encodings produced by ecc_encode that are equal stem from points with the same canonical coordinates (no two different points share an encoding).", "quantifier": "all pairs of points and satisfying assignments", "why_tests_cant": "Tests run only the honest prover; soundness speaks about every assignment of field elements to advice cells that satisfies the circuit, including ones no honest run writes.", "anchors": ["src/circuit/ecc_chip.rs::ecc_encode,ecc_reduce"]}
{"id": "C32", "title": "Point encoding is a function of the point", "statement": "In every satisfying assignment the encoding produced by ecc_encode depends only on the point (the prover has no freedom).", "quantifier": "all satisfying assignments", "why_tests_cant": "Only an adversarial assignment shows the freedom.", "anchors": ["src/circuit/ecc_chip.rs::ecc_encode", "src/circuit/integer_chip.rs::reduce"]}
{"id": "C33", "title": "Scalar decomposition is sound", "statement": "In every satisfying assignment decompose_scalar returns bits whose binary value is congruent to the scalar modulo the scalar field order.", "quantifier": "all scalars, all satisfying assignments", "why_tests_cant": "Tests run only the honest prover; soundness speaks about every assignment of field elements to advice cells that satisfies the circuit, including ones no honest run writes.", "anchors": ["src/circuit/native_scalar_ecc_chip.rs::decompose_scalar", "src/circuit/general_scalar_ecc_chip.rs::decompose_scalar"]}
{"id": "C34", "title": "Multi-scalar multiplication is sound", "statement": "In every satisfying assignment msm (without select chip) returns sum s_i * P_i in the curve group, for any number of points and whatever auxiliary points the prover chose.", "quantifier": "any positive number of points and scalars incl. identity points, all satisfying assignments", "why_tests_cant": "Unbounded inputs and adversarial auxiliary points.", "anchors": ["src/circuit/ecc_chip.rs::msm,msm_unsafe,msm_batch_on_group_non_zero_without_select_chip"]}
{"id": "C35", "title": "Multi-scalar multiplication with the select chip is sound", "statement": "The same as C34 for the select-chip variant.", "quantifier": "any positive number of points, all satisfying assignments", "why_tests_cant": "Tests run only the honest prover; soundness speaks about every assignment of field elements to advice cells that satisfies the circuit, including ones no honest run writes.", "anchors": ["src/circuit/ecc_chip.rs::msm_batch_on_group_non_zero_with_select_chip", "src/circuit/select_chip.rs"]}
{"id": "C36", "title": "Table selection returns a cached value", "statement": "In every satisfying assignment the cell returned by assign_selected_value for (group, limb, selector) equals the value cached for the same group, limb and selector value.", "quantifier": "all groups, limbs, selector values, all satisfying assignments incl. free choice of cells in unused rows", "why_tests_cant": "Tests run only the honest prover; soundness speaks about every assignment of field elements to advice cells that satisfies the circuit, including ones no honest run writes.", "anchors": ["src/circuit/select_chip.rs::configure,assign_cache_value,assign_selected_value,encode_offset"]}
{"id": "C37", "title": "Merging a cloned context keeps every row in view", "statement": "After merging cloned contexts the recorded heights cover every row written by either side.", "quantifier": "all pairs of contexts, all merge orders", "why_tests_cant": "Depends on relative heights of the two contexts.", "anchors": ["src/circuit/native_scalar_ecc_chip.rs::merge", "src/circuit/general_scalar_ecc_chip.rs::merge", "src/context.rs::clone_without_permutation"]}
{"id": "C38", "title": "Parallel window evaluation is schedule independent", "statement": "Running the cloned windows concurrently gives the same recorded rows, whatever the interleaving of their individual writes.", "quantifier": "all interleavings of all writes, any number of windows", "why_tests_cant": "Thread schedules cannot be enumerated by tests.", "anchors": ["src/circuit/ecc_chip.rs::msm_batch_on_group_non_zero_without_select_chip,msm_batch_on_group_non_zero_with_select_chip", "src/circuit/native_scalar_ecc_chip.rs::clone_with_offset", "src/context.rs::enable_permute"]}
{"id": "C39", "title": "Synthesis assigns every recorded cell", "statement": "assign_all copies every recorded advice and fixed value of all three chips into the region and never panics on a recorded copy constraint.", "quantifier": "all recorded contexts (any heights)", "why_tests_cant": "Depends on the ratio of the heights of the chips.", "anchors": ["src/context.rs::_assign_to_base_chip,_assign_to_range_chip,_assign_to_select_chip,_assign_permutation,assign_all"]}
{"id": "C40", "title": "The keccak permutation gadget is Keccak-f[1600]", "statement": "If the state cells hold bits then in every satisfying assignment the permutation gadget outputs the bits of Keccak-f[1600] of the input state.", "quantifier": "all 2^1600 states, all satisfying assignments", "why_tests_cant": "State space cannot be enumerated; existing test uses a few vectors.", "anchors": ["src/circuit/keccak_chip.rs"]}
{"id": "C41", "title": "The keccak hash gadget computes Keccak-256 of a 256-bit encoding of its inputs", "statement": "In every satisfying assignment, for any number of inputs, the output equals (mod n) Keccak-256 of the concatenation of 32-byte integers congruent modulo n to the inputs; for the honest prover those integers are the canonical ones.", "quantifier": "any number of inputs, all values, all satisfying assignments", "why_tests_cant": "Unbounded message length; padding depends on it.", "anchors": ["src/circuit/keccak_chip.rs"]}
{"id": "C42", "title": "The keccak hash gadget's output is determined by its inputs", "statement": "In every satisfying assignment the hash depends only on the input values.", "quantifier": "all satisfying assignments", "why_tests_cant": "Only an adversarial assignment shows the freedom.", "anchors": ["src/circuit/keccak_chip.rs"]}
{"id": "C43", "title": "Extension-field gadgets compute tower arithmetic", "statement": "In every satisfying assignment the fq2, fq6 and fq12 gadgets (add, sub, mul, square, neg, conjugate, mul_by_nonresidue, sparse multiplications, unsafe inverse) compute the operation of the tower F_w[u]/(u^2+1)[v]/(v^3-xi)[z]/(z^2-v).", "quantifier": "all well-formed operands, all satisfying assignments, both towers", "why_tests_cant": "Tests run only the honest prover; soundness speaks about every assignment of field elements to advice cells that satisfies the circuit, including ones no honest run writes.", "anchors": ["src/circuit/fq12.rs", "src/circuit/bn256_pairing_chip.rs", "src/circuit/bls12_381_pairing_chip.rs"]}
{"id": "C44", "title": "Frobenius gadgets raise to the power of the characteristic", "statement": "fq2/fq6/fq12_frobenius_map(x, k) equals x^(p^k) for every exponent k the interface accepts.", "quantifier": "all field elements, all powers", "why_tests_cant": "All elements of a field of 3048 bits.", "anchors": ["src/circuit/bn256_pairing_chip.rs::fq12_frobenius_map", "src/circuit/bls12_381_pairing_chip.rs::fq12_frobenius_map", "src/circuit/bn256_constants.rs"]}
{"id": "C45", "title": "Cyclotomic squaring equals squaring on the cyclotomic subgroup", "statement": "For every element x of the cyclotomic subgroup fq12_cyclotomic_square returns x^2.", "quantifier": "all elements of the cyclotomic subgroup", "why_tests_cant": "Infinite-precision algebraic identity over a huge subgroup.", "anchors": ["src/circuit/fq12.rs::fq12_cyclotomic_square"]}
{"id": "C46", "title": "The final exponentiation computes the intended power", "statement": "The final exponentiation maps f to f^((p^12-1)/r) up to a fixed exponent prime to r.", "quantifier": "all non-zero elements of the field", "why_tests_cant": "All elements of a field of 3048 bits.", "anchors": ["src/circuit/bn256_pairing_chip.rs::final_exponentiation", "src/circuit/bls12_381_pairing_chip.rs::final_exponentiation"]}
{"id": "C47", "title": "Line functions of the Miller loop follow the curve", "statement": "doubling_step and addition_step return the doubled/added point in Jacobian coordinates and coefficients proportional to the tangent/chord line.", "quantifier": "all points", "why_tests_cant": "Algebraic identity over all coordinates.", "anchors": ["src/circuit/pairing_chip.rs::doubling_step,addition_step"]}
{"id": "C48", "title": "The Miller loop consumes exactly the prepared coefficients", "statement": "For any number of pairs the Miller loop never indexes past the prepared line coefficients and uses each exactly once in order.", "quantifier": "any number of pairs", "why_tests_cant": "Unbounded number of pairs; index arithmetic in two places must agree.", "anchors": ["src/circuit/bn256_pairing_chip.rs::multi_miller_loop,prepare_g2", "src/circuit/bls12_381_pairing_chip.rs::multi_miller_loop,prepare_g2"]}
{"id": "C49", "title": "MSM group prefixes never collide", "statement": "Cache entries of different MSM calls, groups, candidates and limbs never share an encoding, so a selection in one MSM cannot read another MSM's cache.", "quantifier": "any number of MSM calls up to the documented limit, all sizes", "why_tests_cant": "Histories of calls.", "anchors": ["src/circuit/native_scalar_ecc_chip.rs::get_and_increase_msm_prefix", "src/circuit/select_chip.rs::encode_offset", "src/circuit/ecc_chip.rs::msm_batch_on_group_non_zero_with_select_chip"]}
{"id": "C50", "title": "Every accepted modulus is handled completely", "statement": "Whenever the parameter checks accept (w, n), multiplication accepts every honest witness.", "quantifier": "all pairs of moduli", "why_tests_cant": "The failing modulus sizes are not among the tested fields.", "anchors": ["src/range_info.rs::pre_check,new", "src/circuit/range_chip.rs::assign_d_leading_limb"]}
{"id": "C51", "title": "A freshly assigned bit is a bit", "statement": "In every satisfying assignment the condition cell returned by assign_bit holds 0 or 1 (otherwise every selection, mask or decomposition driven by it is free).", "quantifier": "all satisfying assignments", "why_tests_cant": "The honest prover always writes a bit twice; only an adversarial assignment shows the missing copy constraint.", "anchors": ["src/circuit/base_chip.rs::assign_bit"]}
{"id": "C52", "title": "The pairing gadgets compute the ate pairing of their operands", "statement": "For any number of pairs, in every satisfying assignment bn256 and bls12-381 pairing return the product of the reduced ate pairings of the pairs, and check_pairing is satisfiable only if that product is one; honest runs on points that meet no vertical line are accepted.", "quantifier": "any number of pairs, all points, all satisfying assignments", "why_tests_cant": "Unbounded number of pairs; fields of 254 and 381 bits; adversarial assignments.", "anchors": ["src/circuit/pairing_chip.rs::pairing,check_pairing", "src/circuit/bn256_pairing_chip.rs", "src/circuit/bls12_381_pairing_chip.rs"]}
{"id": "C53", "title": "An honest multi-scalar multiplication is accepted and records the right sum", "statement": "Whenever msm returns (with the select chip or without, for native and for integer scalars, any number of points, whatever on-curve auxiliary points the prover drew), the witness it recorded satisfies the whole circuit and the returned handle records sum s_i P_i.", "quantifier": "any number of points and scalars, all auxiliary points, all prior circuits in a satisfied state", "why_tests_cant": "The windows are filled in parallel out of order and with precomputed candidates; tests run a few sizes with one random choice of points.", "anchors": ["src/circuit/ecc_chip.rs::msm,msm_unsafe,msm_batch_on_group_non_zero_with_select_chip", "src/circuit/native_scalar_ecc_chip.rs", "src/circuit/general_scalar_ecc_chip.rs"]}
{"id": "C54", "title": "The halo2 constraint system means the recorded circuit", "statement": "With the columns, gates and lookups that the three configure functions create and the lookup table of init_table: whatever advice values halo2 accepts for a synthesised context, read back through the column placement they satisfy every recorded constraint; and a context whose recorded witness satisfies its constraints is accepted by halo2 whatever fills the unusable rows.", "quantifier": "all recorded programs, all table sizes with enough rows, all advice values, all blinding values", "why_tests_cant": "The gates and lookups are expressions over rotated columns; a wrong coefficient, root, rotation or column goes unnoticed as long as the honest witness passes.", "anchors": ["src/circuit/base_chip.rs::configure", "src/circuit/range_chip.rs::configure,init_table", "src/circuit/select_chip.rs::configure", "src/context.rs::_assign_to_base_chip,_assign_to_range_chip,_assign_to_select_chip,_assign_permutation,assign_all"]}
{"id": "C55", "title": "Handles never dangle", "statement": "Every gadget, used on handles that previous calls returned, ties only cells that are recorded and lie in columns enabled for equality, returns only such handles and invalidates none; hence a program that gets its handles from gadgets never makes synthesis panic on a copy constraint.", "quantifier": "all gadgets of all chips, all operands, all prior states, programs of any length", "why_tests_cant": "A dangling handle shows only at synthesis of the particular circuit that uses it, and in cloned contexts the copy constraints are recorded elsewhere.", "anchors": ["src/context.rs::one_line,enable_permute,_assign_permutation", "src/circuit/base_chip.rs", "src/circuit/range_chip.rs", "src/circuit/integer_chip.rs", "src/circuit/ecc_chip.rs", "src/circuit/native_scalar_ecc_chip.rs", "src/circuit/general_scalar_ecc_chip.rs", "src/circuit/fq12.rs", "src/circuit/pairing_chip.rs", "src/circuit/keccak_chip.rs"]}
{"id": "C56", "title": "Circuits without a select chip mean the recorded circuit", "statement": "In a context without a select chip no gadget and no MSM records anything for it; synthesis without the chip then succeeds and halo2 accepts exactly what the recorded circuit accepts; if something was recorded for the missing chip synthesis panics rather than dropping the constraints.", "quantifier": "all gadgets, all recorded programs, all advice values", "why_tests_cant": "The loss of a chip's rows is silent: the remaining circuit is still satisfied by the honest witness.", "anchors": ["src/context.rs::assign_all_with_optional_select_chip,new_without_select_chip", "src/circuit/ecc_chip.rs::msm_unsafe,msm_batch_on_group_non_zero_without_select_chip", "src/circuit/native_scalar_ecc_chip.rs::has_select_chip", "src/circuit/general_scalar_ecc_chip.rs::has_select_chip"]}
{"id": "C57", "title": "An honest multi-scalar multiplication completes", "statement": "If none of the additions that msm performs (subset sums of each group, the windows' sums from the prover's auxiliary points, the doublings and additions that combine the windows) is degenerate, msm does not panic - including the prediction of the space each parallel window needs -, the recorded witness satisfies the circuit, and the result is the sum of s_i P_i; identity points among the inputs do not count as degenerate.", "quantifier": "all moduli, curves, auxiliary points, numbers of points and scalars, native and general scalars, with and without the select chip", "why_tests_cant": "Which additions occur depends on all scalars, points and the random auxiliary points together; tests sample a few of them, and a window that took other space than predicted would abort the prover only for some inputs.", "anchors": ["src/circuit/ecc_chip.rs::msm_unsafe,msm_batch_on_group_non_zero_with_select_chip,msm_batch_on_group_non_zero_without_select_chip", "src/circuit/native_scalar_ecc_chip.rs::decompose_scalar", "src/circuit/general_scalar_ecc_chip.rs::decompose_scalar"]}
{"id": "C58", "title": "Reading an integer back gives the value the constraints enforce", "statement": "get_w of any well-formed integer is the residue of its limbs modulo w, however many additions it has accumulated; after any straight-line program of integer operations on canonical inputs reading back every register gives a result of the program over the residues.", "quantifier": "all accepted moduli, all well-formed integers, programs of any length, all inputs", "why_tests_cant": "A caller uses the value read back off-circuit; a wrong carry or overflow count shows only for particular sequences of unreduced operations.", "anchors": ["src/circuit/integer_chip.rs::get_w,get_w_bn"]}
{"id": "C59", "title": "Multiplying a point by a scalar gives the multiple of the point", "statement": "Whenever ecc_mul returns for recorded operands of an honest prover, the recorded circuit is satisfied and the result is the point s P; and it returns whenever none of the additions it performs is degenerate.", "quantifier": "all moduli, curves, points incl. the identity, scalars, auxiliary points, native and general scalars, with and without the select chip", "why_tests_cant": "All scalars of a 254-bit field; the auxiliary points are random.", "anchors": ["src/circuit/ecc_chip.rs::ecc_mul", "src/circuit/native_scalar_ecc_chip.rs", "src/circuit/general_scalar_ecc_chip.rs"]}
{"id": "C60", "title": "Multiplications through different ecc contexts over one recorder do not interfere", "statement": "When several ecc contexts with the select chip are made over one shared recorder, in every satisfying assignment each of their multi-scalar multiplications still returns sum s_i P_i.", "quantifier": "all numbers of contexts and calls, all satisfying assignments", "why_tests_cant": "Only an adversarial assignment shows that a selection can read the cache of another context.", "anchors": ["src/context.rs::NativeScalarEccContext::new_with_select_chip,GeneralScalarEccContext::new", "src/circuit/native_scalar_ecc_chip.rs::get_and_increase_msm_prefix", "src/circuit/select_chip.rs::encode_offset"]}
{"id": "C61", "title": "Programs of point operations compute in the group of the curve", "statement": "Any straight-line program of point gadgets (constants, identity, complete addition, doubling, negation, reduction, selection, equality assertions) on points of the curve: in every satisfying assignment its registers stand for its result in the group; and an honest run that makes sense in the group never panics and is accepted.", "quantifier": "programs of any length, all points incl. the identity and equal or opposite operands, all satisfying assignments, all accepted moduli", "why_tests_cant": "Panics depend on the overflow counts that a particular sequence of unreduced operations accumulates; tests run a few sequences.", "anchors": ["src/circuit/ecc_chip.rs::ecc_add,ecc_double,ecc_neg,ecc_reduce,ecc_reduce_with_curvature,to_point_with_curvature,bisec_point,assign_constant_point,assign_identity,ecc_assert_equal"]}
{"id": "C62", "title": "A verified circuit of point operations is a statement about the group, under one key for all inputs", "statement": "Take any circuit that reads points with assign_non_zero_point and runs a program of point operations, and make its key from arbitrary sample inputs. Whatever advice columns halo2 accepts for that key, the cells of the input handles hold points of the curve and the cells of the registers hold the program's result on them in the group. Conversely, if the sample's rows are within the ratio of range to base rows that synthesis handles (C39), then for every choice of inputs on which the program makes sense the library's run succeeds, has the same fixed columns and copy constraints, and halo2 accepts it under the sample's key with the results in the same cells.", "quantifier": "programs of any length, all inputs and sample inputs, all advice values, all table sizes with enough rows, all accepted moduli", "why_tests_cant": "End-to-end statement across all layers (gadgets, recorder, synthesis, gates and lookups) about adversarial advice and pairs of runs.", "anchors": ["src/circuit/ecc_chip.rs::assign_non_zero_point,ecc_non_zero_point_downgrade,ecc_add,ecc_double,ecc_neg,ecc_assert_equal", "src/circuit/integer_chip.rs", "src/circuit/base_chip.rs::configure", "src/circuit/range_chip.rs::configure,init_table", "src/circuit/select_chip.rs::configure", "src/context.rs::assign_all"]}
{"id": "C63", "title": "A verified pairing check is the pairing equation, under one key for all inputs", "statement": "Take the circuit of the pairing test: constants in G2, points of G1 read with assign_point, check_pairing, for bn256 and bls12-381; make its key from any sample points on which the run gets through. Whatever advice columns halo2 accepts for that key, the cells of the G1 handles hold points of the curve, none the identity, and the product of their reduced pairings with the constants is one (whenever the lines of the constants exist). Conversely, synthesis of the sample never fails, and for all points with y nonzero whose pairings with the constants multiply to one the library's run succeeds, has the same fixed columns and copy constraints, and halo2 accepts it under the sample's key with the points in the same cells.", "quantifier": "any number of pairs, all constants in G2, all inputs and sample inputs, all advice values, all table sizes with enough rows, any native prime above 2^18", "why_tests_cant": "End-to-end statement across all layers about adversarial advice and pairs of runs; one pairing circuit has hundreds of thousands of rows, tests run a handful of random ones.", "anchors": ["src/tests/native_scalar_pairing_chip.rs::build_bn256_pairing_chip_over_bn256_fr_circuit", "src/circuit/pairing_chip.rs::check_pairing", "src/circuit/ecc_chip.rs::assign_point", "src/circuit/fq12.rs::fq2_assign_constant", "src/circuit/base_chip.rs::configure", "src/circuit/range_chip.rs::configure,init_table", "src/circuit/select_chip.rs::configure", "src/context.rs::assign_all"]}
{"id": "C64", "title": "Range rows stay within a fixed multiple of base rows, so synthesis of large circuits never fails", "statement": "Record any circuit of integer operations (C65), point operations (C62) or pairing check (C63) over a field of n limbs: the range region ends with at most 3n + 4 rows per row of the base region (and one more). Hence a circuit of integer or point operations with at least 16 (3n + 5) base rows is always laid out: synthesis, whose placement of the range region can panic on small circuits (C39), succeeds.", "quantifier": "all programs of integer and point operations, all inputs, any number of pairs, all accepted moduli", "why_tests_cant": "A bound on the row counts of all programs; a test measures single circuits.", "anchors": ["src/circuit/integer_chip.rs::assign_w,assign_d,reduce,add_constraints_for_mul_equation_on_limbs", "src/circuit/range_chip.rs::assign_common,assign_nonleading_limb", "src/context.rs::_assign_to_range_chip,assign_all"]}
{"id": "C65", "title": "A circuit of integer operations computes modulo w, under one key for all inputs", "statement": "Write a circuit that reads integers as witnesses and runs any straight-line program of integer operations on them; make its key from any sample inputs. Whatever advice columns halo2 accepts for that key, the cells of the input handles hold well-formed integers and the cells of the registers hold a result of the program on their residues modulo w. Conversely, if the sample's rows are within the ratio of range to base rows that synthesis handles (C39, C64), then for all canonical inputs on which the program makes sense the library's run succeeds, has the same fixed columns and copy constraints, and halo2 accepts it under the sample's key with a result of the program in the same cells.", "quantifier": "all programs, all inputs and sample inputs, all advice values, all table sizes with enough rows, any native prime above 2^18, every accepted prime w", "why_tests_cant": "End-to-end statement across all layers about adversarial advice and pairs of runs; tests run a handful of random circuits with honest witnesses.", "anchors": ["src/circuit/integer_chip.rs::assign_w,int_mul,int_div,int_sub,reduce,bisec_int", "src/circuit/base_chip.rs::configure", "src/circuit/range_chip.rs::configure,init_table", "src/circuit/select_chip.rs::configure", "src/context.rs::assign_all"]}
