(** PROPERTY C64: how many range rows a circuit needs (integer_chip.rs, range_chip.rs, ecc_chip.rs, fq12.rs, pairing_chip.rs, context.rs).

    EndToEnd.v, PairEnd.v: [point_circuit], [pairing_circuit], the circuits of C62 and C63; IntProg.v: [run_prog], those of C65.  [base_h], [range_h]: the rows of the two regions when the
    circuit has been recorded.  SpecInt.v: [n_limbs w], the limbs of an integer.  Configure.v: [configure], [synthesise]. *)
From Verif Require Import Prelude FieldZ Circuit Context RangeInfo IntegerChip SpecInt SpecProg IntProg EccChip Fq12Chip PairingChip Moduli Fields Halo2 Configure SpecPointProg PointProg EndToEnd PairEnd
  PropsEcc PropsEnd RatioMain.

(** C64, point operations.  Whatever the inputs and the program, a recorded circuit has at most 3 n + 4 range rows per base row
    (and one more), n the number of limbs. *)
Theorem C64_point_rows :
  forall (NM : NMod) w I b ord, range_info_new w = Ok I ->
  forall zs inputs prog r c, point_circuit I b ord zs inputs prog ctx_new = Ok (r, c) ->
    Z.of_nat (range_h c) <= (3 * n_limbs w + 4) * Z.of_nat (base_h c) + 1.
Proof. exact C64_point_rows_main. Qed.
Print Assumptions C64_point_rows.

(** C64, pairing checks: the same, for any number of pairs. *)
Theorem C64_pairing_rows :
  forall (NM : NMod) w I b check, range_info_new w = Ok I -> check = bn_check_pairing I \/ check = bls_check_pairing I ->
  forall qs inputs r c, pairing_circuit I b check qs inputs ctx_new = Ok (r, c) ->
    Z.of_nat (range_h c) <= (3 * n_limbs w + 4) * Z.of_nat (base_h c) + 1.
Proof. exact C64_pairing_rows_main. Qed.
Print Assumptions C64_pairing_rows.

(** C64, synthesis.  A circuit of point operations with at least 16 (3 n + 5) base rows (224 for three limbs) is always synthesised: the
    layout of the range region, which can fail on small circuits (C39), does not. *)
Theorem C64_point_synthesis :
  forall (NM : NMod) w I b ord, range_info_new w = Ok I ->
  forall zs inputs prog r c, point_circuit I b ord zs inputs prog ctx_new = Ok (r, c) ->
    16 * (3 * n_limbs w + 5) <= Z.of_nat (base_h c) ->
    let '(g, s) := configure cs_new in exists F wt, synthesise g s c = Ok (F, wt).
Proof. exact C64_point_synthesis_main. Qed.
Print Assumptions C64_point_synthesis.

(** C64, integer operations: both statements. *)
Theorem C64_integer_rows :
  forall (NM : NMod) w I, range_info_new w = Ok I ->
  forall inputs prog r c, run_prog I inputs prog ctx_new = Ok (r, c) ->
    Z.of_nat (range_h c) <= (3 * n_limbs w + 4) * Z.of_nat (base_h c) + 1.
Proof. exact C64_integer_rows_main. Qed.
Print Assumptions C64_integer_rows.
Theorem C64_integer_synthesis :
  forall (NM : NMod) w I, range_info_new w = Ok I ->
  forall inputs prog r c, run_prog I inputs prog ctx_new = Ok (r, c) ->
    16 * (3 * n_limbs w + 5) <= Z.of_nat (base_h c) ->
    let '(g, s) := configure cs_new in exists F wt, synthesise g s c = Ok (F, wt).
Proof. exact C64_integer_synthesis_main. Qed.
Print Assumptions C64_integer_synthesis.

(** C64, the threshold is needed: a circuit that only takes three integers modulo the base field of bn256 as witnesses is recorded, with 3 base
    rows and 25 range rows, and its synthesis panics. *)
Theorem C64_small_circuits_panic :
  exists I r c, @range_info_new bn256_fr bn256_fq_p = Ok I /\ @run_prog bn256_fr I [1; 2; 3] [] ctx_new = Ok (r, c)
  /\ base_h c = 3%nat /\ range_h c = 25%nat /\ let '(g, s) := @configure bn256_fr cs_new in @synthesise bn256_fr g s c = Panic.
Proof. exact C64_small_circuits_panic_main. Qed.
Print Assumptions C64_small_circuits_panic.

(** Non-vacuous: the program of C62 on three copies of the point (1, 2) of bn256 has 269 base rows and 361 range rows; three limbs. *)
Example C64_case : exists I r c, @range_info_new bn256_fr bn256_fq_p = Ok I
  /\ @point_circuit bn256_fr I 3 bn256_fr_p [true] [(1, 2); (1, 2); (1, 2)] C62_prog ctx_new = Ok (r, c)
  /\ base_h c = 269%nat /\ range_h c = 361%nat /\ n_limbs bn256_fq_p = 3 /\ 16 * (3 * n_limbs bn256_fq_p + 5) <= Z.of_nat (base_h c).
Proof.
  exists bn_fq_info.
  assert (HT : match @point_circuit bn256_fr bn_fq_info 3 bn256_fr_p [true] [(1, 2); (1, 2); (1, 2)] C62_prog ctx_new with
    | Ok (_, c) => Some (base_h c, range_h c) | Panic => None end = Some (269, 361)%nat) by (vm_compute; reflexivity).
  destruct (point_circuit _ _ _ _ _ _ _) as [[r c]|]; [|discriminate HT]. injection HT as H1 H2.
  exists r, c. split; [exact bn_fq_info_ok|]. split; [reflexivity|]. split; [exact H1|]. split; [exact H2|]. split; [reflexivity|].
  rewrite H1. vm_compute. discriminate.
Qed.
