(** PROPERTIES C33 (honest side) and C53: what an honest prover records for scalar
    decomposition and multi-scalar multiplication (src/circuit/ecc_chip.rs,
    native_scalar_ecc_chip.rs, general_scalar_ecc_chip.rs).

    Spec.v: [good c] says that the witness recorded in [c] satisfies the circuit
    recorded in [c], and [accepts].  SpecEcc.v, SpecMsm.v: points, [lin_sum].
    SpecCalls.v: [calls] are histories of calls on one context. *)
From Verif Require Import Prelude FieldZ Circuit Context Spec Logic BaseChip RangeInfo RangeChip IntegerChip
  SpecInt EccChip SpecEcc SpecMsm ScalarChip Msm SpecSelect SpecCalls BnOrder Moduli Fields BaseProofs InfoProofs IntRes EccBridge EccEncode EccMain PropsEcc PropsSelect HonestMain.
(** C33, honest side.  Decomposing a recorded native scalar, or a recorded foreign-field
    integer, in windows of any size W >= 1 never panics and leaves a satisfied circuit; the
    returned cells are bits, grouped in windows of W, and are the binary digits of the
    scalar itself: the residue below n of a native scalar, the residue below r of an
    integer, however unreduced. *)
Theorem C33_decomposition_honest :
  forall (NM : NMod), prime nmod -> forall c W, wf c -> (1 <= W)%nat ->
    (forall s, valid c s -> accepts c (decompose_scalar_native W s) (fun ws c' =>
        Forall (fun win => length win = W) ws
        /\ Forall (fun b => valid c' b /\ (a_val b = 0 \/ a_val b = 1)) (concat (rev ws))
        /\ bin_le (map a_val (concat (rev ws))) = a_val s))
 /\ (forall r J, prime r -> range_info_new r = Ok J -> forall s, int_ok r c s valid ->
      accepts c (decompose_scalar_general J W s) (fun ws c' =>
        Forall (fun win => length win = W) ws
        /\ Forall (fun b => valid c' b /\ (a_val b = 0 \/ a_val b = 1)) (concat (rev ws))
        /\ bin_le (map a_val (concat (rev ws))) = int_value a_val s mod r)).
Proof. exact C33_decomposition_honest_main. Qed.
Print Assumptions C33_decomposition_honest.
(** Non-vacuous: the empty context and window size 1 meet the hypotheses, and a cell
    assigned there is a scalar that decomposes. *)
Example C33_honest_case : exists s c1 ws c2, assign 5 ctx_new = Ok (s, c1)
  /\ @decompose_scalar_native bn256_fr 1 s c1 = Ok (ws, c2) /\ @satisfies bn256_fr c2 (honest c2)
  /\ bin_le (map a_val (concat (rev ws))) = 5.
Proof.
  assert (H5 : 0 <= 5 < @nmod bn256_fr) by (split; [discriminate|reflexivity]).
  destruct (@CT_accepts bn256_fr _ _ _ _ (@assign_CT bn256_fr ctx_new 5 (good_wf _ (@good_new bn256_fr)) H5)) as (s & c1 & R1 & E1 & (V & Es) & G1).
  specialize (G1 (@good_new bn256_fr)). destruct (C33_decomposition_honest bn256_fr bn256_fr_prime c1 1 (good_wf _ G1) (le_n 1)) as [K _].
  destruct (K s V) as (ws & c2 & R2 & E2 & (_ & _ & Ev) & G2). specialize (G2 G1). exists s, c1, ws, c2. split; [exact R1|]. split; [exact R2|].
  split; [apply good_satisfies; [reflexivity|exact G2]|]. rewrite Ev, Es. reflexivity.
Qed.

(** C53, native scalars.  Let the points recorded in a satisfied context be on the curve,
    and let the prover's auxiliary points be on the curve.  Whenever [msm] returns, with the
    select chip or without, the extended circuit is satisfied by what was recorded, and the
    result is a recorded point.  Without the select chip, or with it after any history of
    calls, that point is on the curve and is the sum of v_i P_i with v_i congruent to the
    recorded scalar modulo n (an identity point being replaced by some point with a multiple
    of n), hence the sum of s_i P_i if n annihilates the points. *)
Theorem C53_msm_native_honest :
  forall (NM : NMod) w I b, prime nmod -> prime w -> range_info_new w = Ok I -> 3 < w -> 0 < b < w ->
    (w_bits w + 13) mod 108 <> 0 -> Z.of_nat (ri_limbs I) < 2 ^ 62 ->
  forall c gen r_acc r_line prefix points ps scalars r prefix' c',
    good c -> Forall (fun o => exists x y, o = Some (x, y) /\ on_curve w b (Aff x y)) [gen; r_acc; r_line] ->
    Forall (fun a => point_ok w c a valid) points -> Forall2 (point_is w a_val) points ps -> Forall (on_curve w b) ps ->
    Forall (valid c) scalars ->
    msm_native I b gen r_acc r_line prefix points scalars c = Ok ((r, prefix'), c') ->
    (extends c c' /\ good c' /\ satisfies c' (honest c') /\ point_ok w c' r valid)
 /\ ((forall p, prefix = Some p -> calls (ctx_new, 0) (c, p)) ->
     exists q, point_is w a_val r q /\ on_curve w b q
      /\ let inputs := combine ps (map a_val scalars) in
         (exists g terms, g <> Inf /\ on_curve w b g /\ msm_terms nmod g inputs terms /\ lin_sum w terms q)
      /\ ((forall p, In p ps -> multiple w p nmod Inf) -> (In Inf ps -> forall g, on_curve w b g -> multiple w g nmod Inf) ->
          lin_sum w inputs q)).
Proof. exact C53_msm_native_honest_main. Qed.
Print Assumptions C53_msm_native_honest.
(** Non-vacuous: a point G and a scalar 5 recorded on the empty context of bn256 meet
    the hypotheses, with and without the select chip.  (Running [msm] there takes 254
    complete additions, which is too long to evaluate in the proof assistant.) *)
Example C53_case : exists p s c,
  (p <- @assign_point bn256_fr bn_fq_info 3 (Some (1, 2)) ;; s <- assign 5 ;; mret (p, s)) ctx_new = Ok ((p, s), c)
  /\ prime (@nmod bn256_fr) /\ prime bn256_fq_p /\ @range_info_new bn256_fr bn256_fq_p = Ok bn_fq_info
  /\ 3 < bn256_fq_p /\ 0 < 3 < bn256_fq_p /\ (w_bits bn256_fq_p + 13) mod 108 <> 0 /\ Z.of_nat (ri_limbs bn_fq_info) < 2 ^ 62
  /\ @good bn256_fr c /\ on_curve bn256_fq_p 3 (Aff 1 2)
  /\ @point_ok bn256_fr bn256_fq_p c p (@valid bn256_fr) /\ @point_is bn256_fr bn256_fq_p a_val p (Aff 1 2) /\ @valid bn256_fr c s
  /\ @calls bn256_fr (ctx_new, 0) (c, 0) /\ multiple bn256_fq_p (Aff 1 2) (@nmod bn256_fr) Inf.
Proof.
  pose proof bn_fq_info_ok as HI. destruct C26_case as (_ & HD & C & _). pose proof bn256_fr_prime as PN. pose proof bn256_fq_p_prime as PW.
  pose proof (@good_new bn256_fr) as G0. assert (RB : 0 <= 3 < bn256_fq_p) by (split; [discriminate|reflexivity]).
  destruct (C26_honest_points_accepted bn256_fr bn256_fq_p bn_fq_info 3 PN PW HI RB HD ctx_new (Some (1, 2)) (good_wf _ G0) C)
    as ((p & c1 & R1 & E1 & (O1 & V1) & G1) & _). specialize (G1 G0).
  assert (H5 : 0 <= 5 < @nmod bn256_fr) by (split; [discriminate|reflexivity]).
  destruct (@CT_accepts bn256_fr _ _ _ _ (@assign_CT bn256_fr c1 5 (good_wf _ G1) H5)) as (s & c2 & R2 & E2 & (V2 & Es) & G2). specialize (G2 G1).
  exists p, s, c2. split; [unfold mbind; rewrite R1; cbv beta iota; rewrite R2; reflexivity|].
  split; [exact PN|]. split; [exact PW|]. split; [exact HI|]. split; [reflexivity|]. split; [split; reflexivity|]. split; [exact HD|]. split; [reflexivity|].
  split; [exact G2|]. split; [exact C|]. split; [eapply point_ok_mono; eauto|]. split; [exact V1|]. split; [exact V2|].
  split; [|exact bn_generator_order].
  destruct (C49_other_gadgets_are_quiet bn256_fr) as (Q1 & _ & _ & _ & _ & _ & _ & _ & Q2 & _). destruct (Q2 bn_fq_info) as (_ & _ & _ & _ & _ & _ & _ & _ & Q3 & _).
  eapply calls_quiet; [eapply calls_quiet; [apply calls_none|apply (Q3 3 (Some (1, 2)))|exact R1]|apply (Q1 5)|exact R2].
Qed.

(** C53 for scalars that are recorded foreign-field integers modulo a prime r; as
    [C53_msm_native_honest]. *)
Theorem C53_msm_general_honest :
  forall (NM : NMod) w I b r J, prime nmod -> prime w -> range_info_new w = Ok I -> 3 < w -> 0 < b < w ->
    (w_bits w + 13) mod 108 <> 0 -> Z.of_nat (ri_limbs I) < 2 ^ 62 -> prime r -> range_info_new r = Ok J ->
  forall c gen r_acc r_line prefix points ps scalars x prefix' c',
    good c -> Forall (fun o => exists x y, o = Some (x, y) /\ on_curve w b (Aff x y)) [gen; r_acc; r_line] ->
    Forall (fun a => point_ok w c a valid) points -> Forall2 (point_is w a_val) points ps -> Forall (on_curve w b) ps ->
    Forall (fun s => int_ok r c s valid) scalars ->
    msm_general I J b gen r_acc r_line prefix points scalars c = Ok ((x, prefix'), c') ->
    (extends c c' /\ good c' /\ satisfies c' (honest c') /\ point_ok w c' x valid)
 /\ ((forall p, prefix = Some p -> calls (ctx_new, 0) (c, p)) ->
     exists q, point_is w a_val x q /\ on_curve w b q
      /\ let inputs := combine ps (map (fun s => int_value a_val s mod r) scalars) in
         (exists g terms, g <> Inf /\ on_curve w b g /\ msm_terms r g inputs terms /\ lin_sum w terms q)
      /\ ((forall p, In p ps -> multiple w p r Inf) -> (In Inf ps -> forall g, on_curve w b g -> multiple w g r Inf) ->
          lin_sum w inputs q)).
Proof. exact C53_msm_general_honest_main. Qed.
Print Assumptions C53_msm_general_honest.
(** Non-vacuous: besides the case above, integer scalars of the bls12-381 scalar field
    recorded on the empty context are well formed. *)
Example C53_general_case : exists J s c, prime bls12_381_fr_p /\ @range_info_new bn256_fr bls12_381_fr_p = Ok J
  /\ @assign_w bn256_fr J 5 ctx_new = Ok (s, c) /\ @good bn256_fr c /\ @int_ok bn256_fr bls12_381_fr_p c s (@valid bn256_fr).
Proof.
  pose proof bls_fr_info_ok as HJ. pose proof (range_info_ok _ _ HJ) as JO. eexists. 
  assert (H5 : 0 <= 5 < bls12_381_fr_p) by (split; [discriminate|reflexivity]).
  destruct (@CT_accepts bn256_fr _ _ _ _ (assign_w_C bls12_381_fr_p _ JO bn256_fr_prime bls12_381_fr_p_prime ctx_new 5 (good_wf _ (@good_new bn256_fr)) H5)) as (s & c & R & _ & Hs & G).
  exists s, c. split; [exact bls12_381_fr_p_prime|]. split; [exact HJ|]. split; [exact R|]. split; [exact (G (@good_new bn256_fr))|]. apply (cr_ok _ _ JO) in Hs. apply Hs.
Qed.

