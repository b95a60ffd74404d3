# Formal model of halo2ecc-s in Rocq

## What is modelled

halo2ecc-s records a PLONKish circuit: every gadget call appends rows to three
record tables (base, range, select chip), pushes copy constraints, and stores a
witness value per cell.  The model is a state/error monad over that recorder
(`Context` in `src/context.rs`), plus a separate, small definition of what it
means for an *arbitrary* assignment of field elements to cells to satisfy the
recorded circuit (the gates, lookups and copy constraints that the three
`configure` functions create).  Three kinds of statement follow:

* **soundness**: for every assignment (honest or not) that satisfies the
  circuit after a gadget call, the returned cells hold the specified values;
* **completeness**: for every witness, the call does not panic and the recorded
  witness satisfies every emitted constraint;
* **shape**: fixed columns, copy constraints and cell positions do not depend on
  witness values.

Field elements of the native field N are integers `Z` in `[0,n)`; the foreign
modulus is an integer `w`.  `n` and `w` are universally quantified; primality is
a theorem hypothesis where needed and the range parameters must be accepted by
the model of `RangeInfo::new`.  The concrete bn256/bls12-381 moduli are shown to
meet the hypotheses.

Panics (`assert!`, `unwrap`, index out of range, BigUint underflow) are an
explicit `Panic` result.

## Vocabulary of the statements

Every property theorem is in a file `Props*.v` that contains nothing but
theorems (each closed by `exact`), examples and `Print Assumptions`.  Apart from
the model's own interface functions, statements use only the specification
files, which contain definitions and no proofs:

| file | defines |
|---|---|
| `Circuit.v` | cells, gates, lookups; `satisfies cf A`: the arbitrary assignment `A` satisfies the recorded circuit `cf` |
| `Halo2.v` | what halo2 enforces for any constraint system and table (C54) |
| `Spec.v` | `wf` (context invariant: offsets beyond all written rows), `extends`, `sound m Q` (in every satisfying assignment of every extension of a successful run, `Q`), `accepts c m Q` (the honest run succeeds, only appends, keeps the honest witness satisfying), `sound_bits` (as `sound`, for assignments that give both cells of an `assign_bit` row the same value) |
| `SpecInt.v`, `SpecProg.v`, `SpecPointProg.v` | limbs, integer values modulo w, integer programs, point programs |
| `SpecEcc.v`, `SpecMsm.v` | affine curve law, scalars, sums of multiples |
| `SpecSelect.v`, `SpecCalls.v` | table keys, histories of MSM calls |
| `SpecHeights.v`, `SpecRecorder.v`, `SpecSched.v`, `SpecShape.v` | heights, write logs, interleavings, equality of shapes |
| `SpecSchedule.v` | the additions performed by the MSM, in terms of points (C57) |
| `SpecNoSelect.v` | programs that record nothing for the select chip (C56) |
| `SpecHandles.v` | live cells, the cells a handle refers to, disciplined programs (C55) |
| `SpecKeccak.v`, `SpecKeccakState.v` | Keccak-f[1600] and Keccak-256 after FIPS 202 |
| `SpecTower.v`, `SpecTowerRep.v` | the tower F_p2, F_p6, F_p12 by schoolbook formulas; when handles stand for elements |
| `SpecAte.v`, `SpecPairing.v`, `SpecPairingRep.v` | tangents, chords and lines in affine coordinates, Miller loops, reduced pairings |

Two worlds are related to the code by the same rules: the *sound* world (all
satisfying assignments, the prover chooses everything) and the *honest* world
(the recorded witness).  Soundness never uses the recorded witness values, and
completeness never assumes satisfaction.

## Model files and the code they model

| file | code in /repo/src |
|---|---|
| `Prelude.v`, `FieldZ.v` | result type with panics, integers modulo n (`utils.rs`) |
| `Circuit.v` | what the gates, lookups and tables of the three chips mean for the recorded rows |
| `Context.v` | `context.rs`: `Context`, `Records`, `one_line`, `one_line_with_last`, range and select records, `enable_permute`; `assign.rs` handles |
| `BaseChip.v` | `base_chip.rs` |
| `RangeInfo.v`, `RangeChip.v` | `range_info.rs`, `range_chip.rs` |
| `IntegerChip.v` | `integer_chip.rs` |
| `EccChip.v` | `ecc_chip.rs` without the MSM |
| `ScalarChip.v`, `Msm.v` | `native_scalar_ecc_chip.rs`, `general_scalar_ecc_chip.rs`, the MSM of `ecc_chip.rs` in both variants, clone/merge, parallel windows |
| `Circuit.v`, `RangeChip.v`, `Context.v` | `select_chip.rs`: `configure`, `encode_offset`, `assign_cache_value`, `assign_selected_value` |
| `Synth.v` | `context.rs` 310-590: `assign_all` |
| `Configure.v` | `configure` of the three chips as halo2 expressions, `init_table`, the columns used by `assign_all`; `tests/mod.rs:59-117` for putting them together |
| `NoSelect.v` | `context.rs` 554-576: `assign_all_with_optional_select_chip`; `tests/mod.rs` 201-256 for the circuit without a select chip |
| `Sched.v` | the parallel windows as interleavings of single stores |
| `KeccakChip.v` | `keccak_chip.rs` |
| `Fq12Chip.v`, `PairingConsts.v`, `PairingChip.v` | `fq12.rs`, `bn256_constants.rs`, `pairing_chip.rs`, `bn256_pairing_chip.rs`, `bls12_381_pairing_chip.rs` |

All other files hold proofs or concrete runs (`*Cases.v`, `*Runs.v`,
`*Example.v`, `Fields.v`, `Checker.v`, `FastCheck.v`).

### Not modelled

* Debug output of `context.rs` (`Display`, `dump_*`, `check_row_has_some`) and
  everything under `src/tests`.
* halo2 itself: proving system, layouter, regions.  Its documented meaning
  (`Halo2.v`: finite table, cyclic rotations, usable rows, blinding values,
  lookups, copies) is a definition.  The properties speak of `Circuit.v`, an
  infinite table whose unwritten cells carry fixed value 0 and are free
  otherwise; C54 relates the two in both directions.
* `MAX_ROWS` (`HALO2ECC_S_MAX_ROWS`): the record tables of the model grow without
  bound, those of the code panic beyond it.  By C37 every row a program records lies
  below its final heights, so the two agree when these stay below `MAX_ROWS`.
* Machine integers: `usize` is `nat` or `Z` without overflow; `BigUint` is `Z`,
  its underflow is a panic in the model.
* Threads: the parallel windows are interleavings of atomic single-cell stores
  (`Sched.v`).  The Rust code shares the record tables through raw pointers
  without synchronisation; what the compiler may do with that is not modelled.
* Randomness: the random points and hints of the prover are arguments; the
  theorems hold for all of them.
* The Rust type parameters N, W, C are the moduli n, w and curve constants.
* The curve and field constants of the crate `halo2_proofs::pairing` are
  literals in `Moduli.v` and `PairingConsts.v`.  bn256 constants are the bytes
  in `bn256_constants.rs`.  The raw limbs of the bls12-381 Frobenius constants
  are read as Montgomery form with R = 2^384, as the external library does
  (`from_raw_unchecked`); this is an assumption on that library.

Simplifications are stated in the comment of each definition.

## How each property is proved

| id | theorems in | method |
|---|---|---|
| C01-C09 | `PropsNative` (C09 also `PropsShapeMore`) | soundness and completeness triples from one characterisation of the constraints added by `one_line`; unbounded lists by induction |
| C10-C21 | `PropsInt` | range gates, limb arithmetic by induction on the number of limbs, CRT with lcm(n, 2^(108 k)); n, w any primes accepted by `range_info_new` |
| C22-C24 | `PropsInt` | programs as a deep embedding, induction on the program |
| C25 | `PropsShape`, `PropsShapeMore` | relational triples over two runs |
| C26-C32 | `PropsEcc` | affine law over Z/w; field identities by `FieldSatz` |
| C33-C35 | `PropsMsm`, `PropsSelect`, `PropsHonest`, `PropsForge` | digit decomposition, windowed double-and-add against an abelian group, accumulator cancellation; refutations by running a dishonest prover with the same shape |
| C36, C49 | `PropsSelect` (C49 also `PropsShapeMore`) | lookup argument over the history of cache entries; injectivity of keys |
| C37, C39 | `PropsSynth` | invariants on heights, induction on programs; chunks cover the rows |
| C38 | `PropsSched` | write logs with disjoint footprints commute; induction on interleavings |
| C40-C42 | `PropsKeccak`, `PropsForge` | bit-level refinement; induction on blocks; a dishonest run of the same shape for the refutation of C41 |
| C43-C45 | `PropsTower` | ring identities over any prime; Frobenius constants by computation; fields by explicit inverses |
| C46-C48, C52 | `PropsPairing` | addition chains as powers, cyclotomic subgroup, Jacobian against affine steps, loops by induction on digits and on the number of pairs |
| C50 | `PropsInt` | all accepted moduli outside one residue class; 311-bit counterexample |
| C51 | `PropsNative` | counterexample for every field element |
| C54 | `PropsConfig` | `configure` evaluated to expressions; each gate and lookup on a row of the finite table against its meaning on the recorded row, both ways; rows beyond the heights vanish |
| C55 | `PropsHandles` | a judgement relative to a set of cells that contains the live cells of the final state and is closed under all later states, one rule per constructor, one lemma per gadget; clones only add cells and constraints to it. Also `C39_disciplined_partial` and `C54_synthesis_succeeds` |
| C56 | `PropsNoSelect` | the height of the select chip stays 0 (one lemma per gadget, cloned windows by induction); a table without its columns extends to one with zero columns, so C54 applies |
| C53 | `PropsHonest` | partial-correctness triples for honest runs, with a rule for the parallel windows; the recorded witness is then itself a satisfying assignment, so the value follows from the soundness lemmas with the honest lookup table |
| C34 refuted | `PropsForge` | a dishonest prover's program (`ForgeDec.v`: the last digit is 2) of the same shape as the code's (C25), run with triples that do not demand equal cells in bit rows (`Forge.v`, `CTF`) and carry points off the curve (`ForgeRun.v`, `ForgeMsm.v`) |
| C57 | `PropsTotal` | total-correctness triples that carry the point each handle stands for; a relational argument (`Cost.v`) shows that windows take the same number of rows, so that the predicted offsets are met; the example works with multiples of the generator of bn256, for every scalar below n - 20 |
| C58 | `PropsRead` | corollary of C22 and of the weighted-sum lemma of C12 |
| C59 | `PropsRead` | corollary of C53 and C57 for one point; the example runs it for every scalar below n - 20 (2^250 for integer scalars modulo n) on bn256 |
| C60 refuted | `PropsForge` | a dishonest prover's program (`ForgeShare.v`) of the same shape as the code's: decomposition honest, another auxiliary point, and the entry of digit 1 taken from the other context's call with the same prefix; run with the total-correctness triples of C57 and multiples of the generator of bn256 |
| C61 | `PropsPointProg` | induction over the program with the gadget lemmas of C27 and C30 in both worlds; the interpreter is `PointProg.v`, the meaning `SpecPointProg.v` |
| C62 | `PropsEnd` | the circuit of `EndToEnd.v`: soundness composes C26, C61 and C54 and reads live handles (C55) out of the advice columns; completeness composes C26, C61, C55 (synthesis succeeds), C54 and C25 (same shape, hence the same key) |
| C63 | `PropsPairEnd` | the circuit of `PairEnd.v` (after the pairing test), for both curves: soundness composes C26 (the flag that `assign_point` leaves open is cleared by the check, C52), C52 and C54; completeness composes C26, C43, C52, C55, C54 and C25, as in C62. The case is e(P, G) e(-P, G) = 1; the rows of a whole pairing are too many to evaluate, so the chunk condition of C39 is discharged by counting (`Ratio.v`): every gadget records at most K = 3 limbs + 4 range rows per base row, and the final exponentiation alone records 16 (K + 1) base rows |
| C64 | `PropsRatio` | `Ratio.v`: a potential argument over every gadget, with credit for range rows recorded before the base row that pays for them (`rte e`); composition adds credits, every range assignment is followed by a base row in the same gadget. `C64_small_circuits_panic`: without a lower bound on the base rows it is false (three bare bn256 integers, by computation) |
| C65 | `PropsIntEnd` | as C62, for the integer programs of `IntProg.v`: soundness composes C24 and C54, completeness C22, C25, C54 and C55; the case is a key made from (2, 3) used for all pairs of inputs |

`MANIFEST.json` lists the theorem names and what is missing of every partial
property.

## Findings: properties that are false of the code

Each has a theorem `..._refuted` that exhibits the witness.

1. **`assign_bit` does not force a bit** (C51; `base_chip.rs:357-367`).  The row
   constrains `x - x*y = 0` for two cells that are never tied together, so
   `y = 1` leaves the returned cell x free.  Everything built on it inherits the
   gap: identity flags (`ecc_chip.rs:470`, C26_identity_flag_refuted), scalar
   bits (`native_scalar_ecc_chip.rs:121`, `general_scalar_ecc_chip.rs:112`,
   C33), keccak bits (`keccak_chip.rs:185`, C41).  The multi-scalar multiplication
   is unsound for the same reason: in `C34_msm_native_refuted` the circuit of
   2 (1, 2) on bn256 accepts a result that is not on the curve, and in
   `C35_msm_select_native_refuted` the second of two calls with the select chip takes
   a table entry of the first and returns a wrong point of the curve.  The keccak
   gadget can be made to return (2^256 - 1) / 2 for every input
   (`C41_output_forgeable`): 1/2 is absorbing for xor.  Theorems that depend on it
   are stated for assignments with equal cells (`sound_bits`) and marked partial.
2. **Select chip key 0** (C36, C35): unwritten rows match the key of limb 0 of
   candidate 0 of group 0 of the first MSM, so that selection is free.
3. **Keccak inputs are decomposed into 256 unconstrained bits** (C42): 0 and n
   both decompose the input 0; the hash is not a function of the inputs.
4. **`ecc_encode` is not a function of the point** (C32), because `reduce` does
   not force the canonical representative, and for four-limb base fields two
   points share an encoding (C31).
5. **`try_assert_false` panics** before it can report (C29): the retry of unsafe
   operations is dead code and `msm` aborts on degenerate operands.
6. **`int_mul_small_constant(_, 0)`** gives a result with `times = 0` on which
   negation and subtraction panic (C23).
7. **Accepted moduli without complete multiplication** (C50): when
   (bits(w) + 13) mod 108 = 0 the quotient's leading limb check is too small.
8. **Merged heights** (C37): `range_height = max(select_height, other.range_height)`
   (`native_scalar_ecc_chip.rs:87`, `general_scalar_ecc_chip.rs:88`).
9. **Chunks of the range chip** (C39): `context.rs:411-421` derives them from
   `base_height`; range rows beyond are not assigned, and `base_height = 0`
   panics.
10. **`fq2/6/12_frobenius_map` of bls12-381 ignore the power** (C44); all callers
    pass 1.
11. **Ecc contexts over one recorder** (C60): `new_with_select_chip` and
    `GeneralScalarEccContext::new` start every context's MSM prefix at 0
    (`context.rs:196-240`), so two contexts over one `Rc<RefCell<Context>>` share table
    keys, and a selection in one may take an entry cached by the other, even when
    all bit rows are honest (C49 is about one context).

Observations without a refuted property:

* identity points in an MSM are replaced by a prover-chosen curve point with a
  scalar that is 0 only modulo r, so the exact sum needs r to annihilate the
  curve group (C34, C35 say so);
* MSM with no point panics, and lists of different length are truncated by
  `zip`;
* after `msm_unsafe` returns an error the offsets have not moved although rows
  were written;
* the `padding_len == 8` branch of the keccak gadget is unreachable;
* `doubling_step` computes an unused value; the Miller loop of bls12-381 does
  not check that the coefficient lists are used up (C48); pairing operands at
  infinity are rejected rather than handled (C52);
* the native scalar decomposition is only congruent modulo n.

## Trusted base

* The kernel of Coq 8.16.1, including its virtual machine (`vm_compute` occurs in
  proofs); `coqchk` rechecks everything without the virtual machine.
* `Print Assumptions` below every property theorem answers "Closed under the
  global context" for all of them: no axiom is used.  `coqchk` lists the seven
  axioms `Coq.ssr.ssrunder.Under_rel.*` of the standard library's ssreflect
  plugin support, because a library that is loaded contains them; no theorem
  here depends on them.
* No functor, module type, `Parameter`, `Axiom`, section-less `Variable`,
  `Admitted` or switched-off check is used.
* That the model describes the code: each definition cites the lines it models.
  The parts listed as not modelled are outside the claims.
* That `Halo2.v` describes what halo2 enforces (C54 derives `Circuit.v` from it).

## Experiments with wrong programs

`seeded/LOG.jsonl` has one line per experiment: a realistic bug is put into a
definition of the model in a scratch copy, the build shows which theorems fail.
