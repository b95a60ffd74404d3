(** PROPERTIES C33 and C34: scalar decomposition and multi-scalar multiplication
    (src/circuit/native_scalar_ecc_chip.rs, general_scalar_ecc_chip.rs, ecc_chip.rs).

    [decompose_scalar] returns windows, most significant first, each a list of W
    bits, least significant first: [concat (rev ws)] is the list of all bits, least
    significant first, and [bin_le] its value.  SpecMsm.v: [multiple w p n q] is
    q = n p, [lin_sum w [(p1, n1); ...] q] is q = n1 p1 + ..., [msm_terms].
    [sound_bits] is soundness for the assignments in which the two cells of every
    [assign_bit] row agree, which C51 shows is not forced. *)
From Verif Require Import Prelude FieldZ Circuit Context Spec BaseChip RangeInfo RangeChip IntegerChip
  SpecInt EccChip SpecEcc SpecMsm ScalarChip Msm Moduli Fields BnOrder MsmMain.
(** C33.  In every satisfying assignment the value of the cells returned by
    [decompose_scalar] is congruent to the native scalar modulo the field order, for
    every window size; if moreover the two cells of each [assign_bit] row agree, the
    returned cells are bits, and the same holds for scalars that are foreign-field
    integers.  Missing: without that agreement the cells need not be bits
    ([C33_returned_cells_are_bits_refuted]), and the value of an integer scalar is only
    shown under it. *)
Theorem C33_decomposition_partial :
  forall (NM : NMod), prime nmod ->
    (forall W s, sound (decompose_scalar_native W s) (fun A ws =>
        bin_le (map (at_ A) (concat (rev ws))) mod nmod = A⟦s⟧))
 /\ (forall W s, sound_bits (decompose_scalar_native W s) (fun A ws =>
        Forall (fun win => length win = W) ws /\ Forall (fun b => A⟦b⟧ = 0 \/ A⟦b⟧ = 1) (concat (rev ws))
        /\ bin_le (map (at_ A) (concat (rev ws))) mod nmod = A⟦s⟧))
 /\ (forall r J, prime r -> range_info_new r = Ok J -> forall W s,
      sound_bits (decompose_scalar_general J W s) (fun A ws => forall v, int_is r (at_ A) s v ->
        Forall (fun win => length win = W) ws /\ Forall (fun b => A⟦b⟧ = 0 \/ A⟦b⟧ = 1) (concat (rev ws))
        /\ bin_le (map (at_ A) (concat (rev ws))) mod r = v)).
Proof. exact C33_decomposition_partial_main. Qed.
Print Assumptions C33_decomposition_partial.

(** C33, C51: the circuit that decomposes the native scalar 2 is satisfied by the honest
    assignment and also by one in which a returned cell is 2. *)
Theorem C33_returned_cells_are_bits_refuted :
  exists ws c A0 A, (s <- assign 2 ;; @decompose_scalar_native bn256_fr 1 s) ctx_new = Ok (ws, c)
    /\ @satisfies bn256_fr c A0 /\ @satisfies bn256_fr c A
    /\ exists w b, In w ws /\ In b w /\ A⟦b⟧ = 2.
Proof. exact C33_returned_cells_are_bits_refuted_main. Qed.
Print Assumptions C33_returned_cells_are_bits_refuted.

(** C34, native scalars.  Let [ps] be the points the handles stand for in a satisfying
    assignment.  The result stands for the sum of v_i P_i, with v_i congruent to the
    scalar modulo the order n of the scalar field, except that an identity point is
    replaced by some point g of the curve taken with some multiple of n; hence, when n
    annihilates the points (and, if the identity is among them, every point of the
    curve), for the sum of s_i P_i.  This holds for any number of points and whatever
    points [gen], [r_acc], [r_line] the prover uses.
    Missing: the agreement of the two cells of each [assign_bit] row is assumed
    (C51). *)
Theorem C34_msm_native_partial :
  forall (NM : NMod) w I b, prime nmod -> prime w -> range_info_new w = Ok I -> 3 < w -> 0 < b < w ->
  forall gen r_acc r_line points scalars,
    sound_bits (msm_native I b gen r_acc r_line None points scalars) (fun A r =>
      forall ps, Forall2 (point_is w (at_ A)) points ps -> Forall (on_curve w b) ps ->
        let inputs := combine ps (map (at_ A) scalars) in
        (exists g terms q, g <> Inf /\ on_curve w b g /\ msm_terms nmod g inputs terms
           /\ lin_sum w terms q /\ on_curve w b q /\ point_is w (at_ A) (fst r) q)
     /\ ((forall p, In p ps -> multiple w p nmod Inf) ->
         (In Inf ps -> forall g, on_curve w b g -> multiple w g nmod Inf) ->
         exists q, lin_sum w inputs q /\ on_curve w b q /\ point_is w (at_ A) (fst r) q)).
Proof. exact C34_msm_native_partial_main. Qed.
Print Assumptions C34_msm_native_partial.
(** Non-vacuous: bn256, two generators; the generator is annihilated by the order of
    the scalar field. *)
Example C34_case : prime (@nmod bn256_fr) /\ prime bn256_fq_p /\ @range_info_new bn256_fr bn256_fq_p = Ok bn_fq_info
  /\ 3 < bn256_fq_p /\ 0 < 3 < bn256_fq_p
  /\ Forall (on_curve bn256_fq_p 3) [Aff 1 2; Aff 1 2]
  /\ (forall p, In p [Aff 1 2; Aff 1 2] -> multiple bn256_fq_p p (@nmod bn256_fr) Inf)
  /\ ~ In Inf [Aff 1 2; Aff 1 2].
Proof.
  assert (C : on_curve bn256_fq_p 3 (Aff 1 2)) by (split; [|split]; [split; [discriminate|reflexivity]..|reflexivity]).
  split; [exact bn256_fr_prime|]. split; [exact bn256_fq_p_prime|]. split; [exact bn_fq_info_ok|]. split; [reflexivity|].
  split; [split; reflexivity|]. split; [auto|]. split.
  - intros p [<-|[<-|[]]]; exact bn_generator_order.
  - intros [E|[E|[]]]; discriminate.
Qed.

(** C34, scalars that are integers modulo a prime r foreign to the circuit: as
    [C34_msm_native_partial]. *)
Theorem C34_msm_general_partial :
  forall (NM : NMod) w I b r J, prime nmod -> prime w -> range_info_new w = Ok I -> 3 < w -> 0 < b < w ->
    prime r -> range_info_new r = Ok J ->
  forall gen r_acc r_line points scalars,
    sound_bits (msm_general I J b gen r_acc r_line None points scalars) (fun A x =>
      forall ps, Forall2 (point_is w (at_ A)) points ps -> Forall (on_curve w b) ps ->
      forall ss, Forall2 (int_is r (at_ A)) scalars ss ->
        let inputs := combine ps ss in
        (exists g terms q, g <> Inf /\ on_curve w b g /\ msm_terms r g inputs terms
           /\ lin_sum w terms q /\ on_curve w b q /\ point_is w (at_ A) (fst x) q)
     /\ ((forall p, In p ps -> multiple w p r Inf) ->
         (In Inf ps -> forall g, on_curve w b g -> multiple w g r Inf) ->
         exists q, lin_sum w inputs q /\ on_curve w b q /\ point_is w (at_ A) (fst x) q)).
Proof. exact C34_msm_general_partial_main. Qed.
Print Assumptions C34_msm_general_partial.
(** Non-vacuous: the integer scalars of the bls12-381 scalar field are accepted. *)
Example C34_general_case : prime bls12_381_fr_p /\ exists J, @range_info_new bn256_fr bls12_381_fr_p = Ok J.
Proof. split; [exact bls12_381_fr_p_prime|]. eexists. exact bls_fr_info_ok. Qed.

