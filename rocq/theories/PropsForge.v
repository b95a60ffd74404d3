(** PROPERTIES C34, C35 and C41, refuted without the assumption on bit rows, and C60: a dishonest prover can make
    the multi-scalar multiplication return a point that is not the product, and the keccak gadget a
    value that is not a digest
    (src/circuit/ecc_chip.rs:91-219, base_chip.rs [assign_bit]).

    SpecEcc.v: [point_is w f a p] says that the handle a stands for the point p under
    the values f, [on_curve] the points of the curve.  SpecMsm.v: [multiple w p n q] says
    q = n p.  SpecCalls.v: [calls] are histories of calls on one context. *)
From Verif Require Import Prelude FieldZ Circuit Context Spec BaseChip RangeInfo IntegerChip SpecInt
  EccChip SpecEcc SpecMsm ScalarChip Msm BnOrder Moduli Fields SpecCalls KeccakChip SpecKeccak SpecKeccakState KeccakMain ForgeMain ForgeSelMain ForgeShareMain ForgeHashMain.

(** C34, native scalars, as it stands (for all satisfying assignments) is false of the
    code.  On bn256 G1, record the generator (1, 2) and the scalar 2 in a fresh context
    and multiply, honestly: the recorded witness satisfies the circuit and the
    result stands for 2 (1, 2).  The same circuit has another satisfying assignment in
    which the point is still (1, 2) and the scalar is still 2, but the result stands for
    a pair of coordinates that is not on the curve.  [C34_msm_native_partial] shows
    that this needs a bit row whose two cells differ. *)
Theorem C34_msm_native_refuted :
  exists p s c xa ya xl yl r c' A q,
    (p <- @assign_point bn256_fr bn_fq_info 3 (Some (1, 2)) ;; s <- assign 2 ;; mret (p, s)) ctx_new = Ok ((p, s), c)
  /\ @msm_native bn256_fr bn_fq_info 3 (Some (1, 2)) (Some (xa, ya)) (Some (xl, yl)) None [p] [s] c = Ok ((r, None), c')
  /\ @satisfies bn256_fr c' (honest c')
  /\ (exists d, @point_is bn256_fr bn256_fq_p a_val r d /\ multiple bn256_fq_p (Aff 1 2) 2 d)
  /\ @satisfies bn256_fr c' A /\ @point_is bn256_fr bn256_fq_p (at_ A) p (Aff 1 2) /\ A⟦s⟧ = 2
  /\ @point_is bn256_fr bn256_fq_p (at_ A) r q /\ ~ on_curve bn256_fq_p 3 q /\ ~ multiple bn256_fq_p (Aff 1 2) 2 q.
Proof. exact C34_msm_native_refuted_main. Qed.
Print Assumptions C34_msm_native_refuted.

(** C35, native scalars with the select chip, as it stands is false of the code, also
    for a call with a positive prefix.  On bn256 G1, record the generator (1, 2) and a scalar u in a
    fresh context and multiply twice with the select chip, honestly: the prefix of the
    second call is 2^20, the witness satisfies the circuit, and the second result stands for u (1, 2).
    The same circuit has another satisfying assignment in which the point is still (1, 2) and
    the scalar is still u, but the second result stands for another point of the curve.
    The scalar is chosen so that a bit row holding u as its digit asks the table for an entry of the
    first call; [C35_msm_select_native_partial] shows that this needs a bit row whose
    two cells differ. *)
Theorem C35_msm_select_native_refuted :
  let u := 14257617186829046020832788938230507210244663539175646843551347478986615434784 in
  exists p s c xa ya xl yl r1 c1 r c2 A q,
    (p <- @assign_point bn256_fr bn_fq_info 3 (Some (1, 2)) ;; s <- assign u ;; mret (p, s)) ctx_new = Ok ((p, s), c)
  /\ @msm_native bn256_fr bn_fq_info 3 (Some (1, 2)) (Some (xa, ya)) (Some (xl, yl)) (Some 0) [p] [s] c = Ok ((r1, Some (2 ^ 20)), c1)
  /\ @msm_native bn256_fr bn_fq_info 3 (Some (1, 2)) (Some (xa, ya)) (Some (xl, yl)) (Some (2 ^ 20)) [p] [s] c1 = Ok ((r, Some (2 ^ 21)), c2)
  /\ @calls bn256_fr (ctx_new, 0) (c1, 2 ^ 20)
  /\ @satisfies bn256_fr c2 (honest c2)
  /\ (exists d, @point_is bn256_fr bn256_fq_p a_val r d /\ multiple bn256_fq_p (Aff 1 2) u d)
  /\ @satisfies bn256_fr c2 A /\ @point_is bn256_fr bn256_fq_p (at_ A) p (Aff 1 2) /\ A⟦s⟧ = u
  /\ @point_is bn256_fr bn256_fq_p (at_ A) r q /\ on_curve bn256_fq_p 3 q /\ ~ multiple bn256_fq_p (Aff 1 2) u q.
Proof. exact C35_msm_select_native_refuted_main. Qed.
Print Assumptions C35_msm_select_native_refuted.

(** C41, as it stands, is false of the code, in the strongest possible way.  Whatever was recorded
    before, whatever the values of the inputs (at least one) and whatever the odd prime n: the circuit
    of the hash has a satisfying assignment that agrees with the recorded witness on all earlier cells and in which
    the output is (2^256 - 1) / 2.  (With 1/2 in the cells of the bit rows every bit of the
    state is 1/2 after one round, since xor sends 1/2 and anything to 1/2.)  [C41_hash_partial]
    shows that this needs bit rows whose two cells differ. *)
Theorem C41_output_forgeable :
  forall (NM : NMod), prime nmod -> 2 < nmod -> forall c input r c',
    good c -> input <> [] -> Forall (valid c) input -> hash input c = Ok (r, c') ->
    exists A, satisfies c' A /\ (forall a, valid c a -> A⟦a⟧ = a_val a) /\ (2 * A⟦r⟧) mod nmod = (2 ^ 256 - 1) mod nmod.
Proof. exact C41_output_forgeable_main. Qed.
Print Assumptions C41_output_forgeable.
(** Hence the claim of C41 fails: over the scalar field of bls12-381, record n - 1 in a fresh context and hash it.
    The honest output is the digest of n - 1, but there is a satisfying assignment with the same input whose
    output is not the digest of any 256-bit encoding of the input. *)
Theorem C41_hash_refuted :
  exists (NM : NMod) a r c' A, nmod = bls12_381_fr_p
    /\ (a <- assign (nmod - 1) ;; r <- hash [a] ;; mret (a, r)) ctx_new = Ok ((a, r), c')
    /\ satisfies c' (honest c') /\ a_val r = digest [nmod - 1] mod nmod
    /\ satisfies c' A /\ A⟦a⟧ = nmod - 1
    /\ forall vs, Forall2 (fun a v => 0 <= v < 2 ^ 256 /\ v mod nmod = A⟦a⟧) [a] vs -> A⟦r⟧ <> digest vs mod nmod.
Proof. exact C41_hash_refuted_main. Qed.
Print Assumptions C41_hash_refuted.
(** And over the scalar field of bn256, the input 0 has an output other than its digest. *)
Example C41_case :
  exists a r c' A, (a <- assign 0 ;; r <- @hash bn256_fr [a] ;; mret (a, r)) ctx_new = Ok ((a, r), c')
    /\ @satisfies bn256_fr c' A /\ A⟦a⟧ = 0 /\ (2 * A⟦r⟧) mod bn256_fr_p = (2 ^ 256 - 1) mod bn256_fr_p /\ A⟦r⟧ <> digest [0] mod bn256_fr_p.
Proof.
  destruct (@C41_honest bn256_fr bn256_fr_prime ltac:(discriminate) 0 ltac:(split; [discriminate|reflexivity])) as (a & r & c0 & c' & R1 & G1 & V1 & H1 & R2 & G2 & H2).
  destruct (C41_output_forgeable bn256_fr bn256_fr_prime ltac:(reflexivity) c0 [a] r c' G1 ltac:(discriminate) ltac:(constructor; [exact V1|constructor]) R2) as (A & SA & KA & OA).
  exists a, r, c', A. split; [unfold mbind; rewrite R1; cbv beta iota; rewrite R2; reflexivity|]. split; [exact SA|]. pose proof (KA a V1) as EA. rewrite H1 in EA.
  split; [exact EA|]. split; [exact OA|]. rewrite digest_0. intros K. rewrite K in OA. vm_compute in OA. discriminate OA.
Qed.

(** C60, as it stands, is false of the code, whatever the bit rows hold.  On bn256 G1, record the generator (1, 2) and the
    scalar 1 in a fresh recorder.  Make two ecc contexts over this recorder, each with the select chip and hence each with
    its own prefix, which starts at 0 (context.rs:196-201; [mul] is the call both make).  Multiply the point by the scalar twice in the first context and then
    twice in the second, honestly: the witness satisfies the circuit.  The same circuit has
    another satisfying assignment, whose bit rows hold equal cells, in which the point is still (1, 2) and the scalar
    still 1, but the result of the last multiplication stands for another point of the curve than (1, 2). *)
Theorem C60_shared_recorder_refuted :
  let mul := fun xa ya xl yl prefix p s => @msm_native bn256_fr bn_fq_info 3 (Some (1, 2)) (Some (xa, ya)) (Some (xl, yl)) (Some prefix) [p] [s] in
  exists p s c xa ya xl yl r1 c1 r2 c2 r3 c3 r c4 A q,
    (p <- @assign_point bn256_fr bn_fq_info 3 (Some (1, 2)) ;; s <- assign 1 ;; mret (p, s)) ctx_new = Ok ((p, s), c)
  /\ mul xa ya xl yl 0 p s c = Ok ((r1, Some (2 ^ 20)), c1) /\ mul xa ya xl yl (2 ^ 20) p s c1 = Ok ((r2, Some (2 ^ 21)), c2)
  /\ mul xa ya xl yl 0 p s c2 = Ok ((r3, Some (2 ^ 20)), c3) /\ mul xa ya xl yl (2 ^ 20) p s c3 = Ok ((r, Some (2 ^ 21)), c4)
  /\ @satisfies bn256_fr c4 (honest c4)
  /\ @satisfies bn256_fr c4 A /\ @bit_consistent bn256_fr c4 A /\ @point_is bn256_fr bn256_fq_p (at_ A) p (Aff 1 2) /\ A⟦s⟧ = 1
  /\ @point_is bn256_fr bn256_fq_p (at_ A) r q /\ on_curve bn256_fq_p 3 q /\ q <> Aff 1 2.
Proof. exact C60_shared_recorder_refuted_main. Qed.
Print Assumptions C60_shared_recorder_refuted.
