(** PROPERTIES C26-C32: elliptic-curve points over the foreign base field
    (src/circuit/ecc_chip.rs, trait EccChipBaseOps).

    The curve is y^2 = x^3 + b over the prime w.  SpecEcc.v: [on_curve w b p], the
    addition relation [pt_add w p q r], [pt_neg]; [point_is w f a p], [nz_is] and
    [pointc_is] say that a point handle (with identity flag; known not to be the
    identity; with cached tangent slope) stands for [p] when cells are read with
    [f], where [at_ A] reads the assignment [A] and [a_val] the recorded witness;
    [point_ok w c a valid] says that the handle is recorded in [c] with a
    well-formed witness.  [sound], [sound_bits], [accepts] are as in PropsNative.v. *)
From Verif Require Import Prelude FieldZ Circuit Context Spec Logic ModArith BaseChip BaseProofs RangeInfo RangeChip IntegerChip
  SpecInt EccChip SpecEcc Moduli Fields NativeMain EccEncode EccMain.
(** C26.  In every satisfying assignment the handle returned by [assign_point] has
    identity flag 1 or coordinates on the curve, and [assign_non_zero_point] returns a
    point of the curve.  (If moreover the two cells of an [assign_bit] row agree, which
    C51 shows the circuit does not force, the handle stands for a point of the curve or
    the identity.) *)
Theorem C26_points_on_curve :
  forall (NM : NMod) w I b, prime nmod -> prime w -> range_info_new w = Ok I -> 0 <= b < w ->
    (forall p, sound (assign_point I b p) (fun A r => int_wf w (at_ A) (p_x r) /\ int_wf w (at_ A) (p_y r)
        /\ (A⟦p_z r⟧ = 1 \/ on_curve w b (Aff (int_value (at_ A) (p_x r) mod w) (int_value (at_ A) (p_y r) mod w)))))
 /\ (forall p, sound_bits (assign_point I b p) (fun A r => exists q, point_is w (at_ A) r q /\ on_curve w b q))
 /\ (forall p, sound (assign_non_zero_point I b p) (fun A r => exists x y, nz_is w (at_ A) r x y /\ on_curve w b (Aff x y))).
Proof. exact C26_points_on_curve_main. Qed.
Print Assumptions C26_points_on_curve.

(** C26, honest side.  Every point of the curve, and the identity, can be assigned by
    the honest prover, also as a constant, and the handle stands for it. *)
Theorem C26_honest_points_accepted :
  forall (NM : NMod) w I b, prime nmod -> prime w -> range_info_new w = Ok I -> 0 <= b < w ->
    (w_bits w + 13) mod 108 <> 0 ->
    forall c p, wf c -> on_curve w b (pt_of p) ->
      accepts c (assign_point I b p) (fun r c' => point_ok w c' r valid /\ point_is w a_val r (pt_of p))
   /\ accepts c (assign_constant_point I p) (fun r c' => point_ok w c' r valid /\ point_is w a_val r (pt_of p))
   /\ (forall x y, p = Some (x, y) ->
        accepts c (assign_non_zero_point I b p) (fun r c' => nz_ok w c' r valid /\ nz_is w a_val r x y)).
Proof. exact C26_honest_points_accepted_main. Qed.
Print Assumptions C26_honest_points_accepted.
(** Non-vacuous: the generator (1, 2) of bn256 and the identity are on the curve
    y^2 = x^3 + 3, and the bn256 base field is accepted. *)
Example C26_case : @range_info_new bn256_fr bn256_fq_p = Ok bn_fq_info /\ (w_bits bn256_fq_p + 13) mod 108 <> 0
  /\ on_curve bn256_fq_p 3 (Aff 1 2) /\ on_curve bn256_fq_p 3 Inf
  /\ exists r c, @assign_point bn256_fr bn_fq_info 3 (Some (1, 2)) ctx_new = Ok (r, c) /\ @satisfies bn256_fr c (honest c).
Proof.
  pose proof bn_fq_info_ok as HI. assert (HD : (w_bits bn256_fq_p + 13) mod 108 <> 0) by (vm_compute; discriminate).
  assert (C : on_curve bn256_fq_p 3 (Aff 1 2)) by (split; [|split]; [split; [discriminate|reflexivity]..|reflexivity]).
  split; [exact HI|]. split; [exact HD|]. split; [exact C|]. split; [exact Logic.I|].
  destruct (C26_honest_points_accepted bn256_fr bn256_fq_p bn_fq_info 3 bn256_fr_prime bn256_fq_p_prime HI
     ltac:(split; [discriminate|reflexivity]) HD ctx_new (Some (1, 2)) (good_wf _ (@good_new bn256_fr)) C) as (K & _).
  destruct (accepts_witnessed bn256_fr _ _ _ bn256_fr_prime (@good_new bn256_fr) K) as (r & c & R & _ & S & _).
  exists r, c. auto.
Qed.

(** C27.  In every satisfying assignment the complete operations follow the group law,
    for all points of the curve including the identity, equal and opposite operands. *)
Theorem C27_group_law_sound :
  forall (NM : NMod) w I b ord, prime nmod -> prime w -> range_info_new w = Ok I -> 0 <= b < w ->
    (forall a a', sound (ecc_add I a a') (fun A r => forall p, pointc_is w (at_ A) a p -> forall q, point_is w (at_ A) a' q ->
        on_curve w b p -> on_curve w b q ->
        exists s, pt_add w p q s /\ on_curve w b s /\ point_is w (at_ A) r s))
 /\ (forall a, sound (ecc_double I ord a) (fun A r => forall p, pointc_is w (at_ A) a p -> on_curve w b p ->
        exists s, pt_add w p p s /\ on_curve w b s /\ point_is w (at_ A) r s))
 /\ (forall a, sound (ecc_neg I a) (fun A r => forall p, point_is w (at_ A) a p -> point_is w (at_ A) r (pt_neg w p)))
 /\ (forall a, sound (to_point_with_curvature I a) (fun A r => forall p, point_is w (at_ A) a p -> pointc_is w (at_ A) r p))
 /\ (forall a, sound (ecc_reduce_with_curvature I a) (fun A r => forall p, point_is w (at_ A) a p -> pointc_is w (at_ A) r p))
 /\ (forall a, sound (ecc_reduce I a) (fun A r => forall p, point_is w (at_ A) a p ->
        point_is w (at_ A) r p /\ i_times (p_x r) = 1 /\ i_times (p_y r) = 1))
 /\ (forall k a a', sound (bisec_point I k a a') (fun A r => forall p, point_is w (at_ A) a p -> forall q, point_is w (at_ A) a' q ->
        forall z, A⟦k⟧ = Z.b2z z -> point_is w (at_ A) r (if z then p else q)))
 /\ sound (assign_identity I) (fun A r => pointc_is w (at_ A) r Inf).
Proof. exact C27_group_law_sound_main. Qed.
Print Assumptions C27_group_law_sound.

(** C27, honest side.  From well-formed operands the complete operations never panic,
    leave a satisfied circuit, and record the group-law result. *)
Theorem C27_group_law_honest :
  forall (NM : NMod) w I b ord, prime nmod -> prime w -> range_info_new w = Ok I -> 0 <= b < w ->
    (w_bits w + 13) mod 108 <> 0 -> forall c, wf c ->
    (forall a a' p q, pointc_ok w c a valid -> pointc_is w a_val a p -> point_ok w c a' valid -> point_is w a_val a' q ->
        on_curve w b p -> on_curve w b q ->
        accepts c (ecc_add I a a') (fun r c' => point_ok w c' r valid /\ exists s, pt_add w p q s /\ point_is w a_val r s))
 /\ (forall a p, Z.Odd ord -> 1 < ord -> pointc_ok w c a valid -> pointc_is w a_val a p ->
        accepts c (ecc_double I ord a) (fun r c' => point_ok w c' r valid /\ exists s, pt_add w p p s /\ point_is w a_val r s))
 /\ (forall a p, point_ok w c a valid -> point_is w a_val a p ->
        accepts c (ecc_neg I a) (fun r c' => point_ok w c' r valid /\ point_is w a_val r (pt_neg w p))
     /\ accepts c (to_point_with_curvature I a) (fun r c' => pointc_ok w c' r valid /\ pointc_is w a_val r p)
     /\ accepts c (ecc_reduce_with_curvature I a) (fun r c' => pointc_ok w c' r valid /\ pointc_is w a_val r p)
     /\ accepts c (ecc_reduce I a) (fun r c' => point_ok w c' r valid /\ point_is w a_val r p)).
Proof. exact C27_group_law_honest_main. Qed.
Print Assumptions C27_group_law_honest.
(** Non-vacuous: G + G for the generator of bn256, through the complete addition:
    the run from the empty state succeeds, its witness satisfies the circuit and
    stands for a point s with G + G = s. *)
Example C27_case : exists r c s,
  (p <- @assign_point bn256_fr bn_fq_info 3 (Some (1, 2)) ;;
   pc <- @to_point_with_curvature bn256_fr bn_fq_info p ;; @ecc_add bn256_fr bn_fq_info pc p) ctx_new = Ok (r, c)
  /\ @satisfies bn256_fr c (honest c) /\ pt_add bn256_fq_p (Aff 1 2) (Aff 1 2) s /\ @point_is bn256_fr bn256_fq_p a_val r s.
Proof.
  pose proof bn_fq_info_ok as HI. destruct C26_case as (_ & HD & C & _). pose proof bn256_fr_prime as PN. pose proof bn256_fq_p_prime as PW.
  pose proof (@good_new bn256_fr) as G0. assert (RB : 0 <= 3 < bn256_fq_p) by (split; [discriminate|reflexivity]).
  destruct (C26_honest_points_accepted bn256_fr bn256_fq_p bn_fq_info 3 PN PW HI RB HD ctx_new (Some (1, 2)) (good_wf _ G0) C)
    as ((p & c1 & R1 & E1 & (O1 & V1) & G1) & _). specialize (G1 G0).
  destruct (C27_group_law_honest bn256_fr bn256_fq_p bn_fq_info 3 3 PN PW HI RB HD c1 (good_wf _ G1)) as (_ & _ & K).
  destruct (K p _ O1 V1) as (_ & (pc & c2 & R2 & E2 & (O2 & V2) & G2) & _). specialize (G2 G1). clear K.
  destruct (C27_group_law_honest bn256_fr bn256_fq_p bn_fq_info 3 3 PN PW HI RB HD c2 (good_wf _ G2)) as (K & _ & _).
  assert (O1' : point_ok bn256_fq_p c2 p valid) by (eapply point_ok_mono; eauto).
  destruct (K pc p _ _ O2 V2 O1' V1 C C) as (r & c3 & R3 & E3 & (O3 & s & AD & V3) & G3).
  exists r, c3, s. split; [unfold mbind; rewrite R1; unfold mbind; rewrite R2; exact R3|].
  split; [apply good_satisfies; [apply (n_pos PN)|auto]|]. auto.
Qed.

(** C28.  In every satisfying assignment the operands of [ecc_add_unsafe] have different
    abscissae and the result is their sum; the operand of [ecc_double_unsafe] has
    non-zero ordinate and the result is its double. *)
Theorem C28_unsafe_ops_sound :
  forall (NM : NMod) w I, prime nmod -> prime w -> range_info_new w = Ok I ->
    (forall a a', sound (ecc_add_unsafe I a a') (fun A r => forall x1 y1, nz_is w (at_ A) a x1 y1 -> forall x2 y2, nz_is w (at_ A) a' x2 y2 ->
        x1 <> x2 /\ exists s x y, r = UOk s /\ nz_is w (at_ A) s x y /\ pt_add w (Aff x1 y1) (Aff x2 y2) (Aff x y)))
 /\ (forall a, sound (ecc_double_unsafe I a) (fun A r => forall x1 y1, nz_is w (at_ A) a x1 y1 ->
        (2 * y1) mod w <> 0 /\ exists s x y, r = UOk s /\ nz_is w (at_ A) s x y /\ pt_add w (Aff x1 y1) (Aff x1 y1) (Aff x y)))
 /\ (forall a, sound (ecc_neg_non_zero I a) (fun A r => forall x y, nz_is w (at_ A) a x y -> nz_is w (at_ A) r x ((- y) mod w)))
 /\ (forall a a', sound (ecc_assert_equal_non_zero I a a') (fun A _ => forall x1 y1, nz_is w (at_ A) a x1 y1 -> forall x2 y2, nz_is w (at_ A) a' x2 y2 ->
        x1 = x2 /\ y1 = y2))
 /\ (forall a, sound (ecc_non_zero_point_downgrade a) (fun A r => forall x y, nz_is w (at_ A) a x y -> point_is w (at_ A) r (Aff x y))).
Proof. exact C28_unsafe_ops_sound_main. Qed.
Print Assumptions C28_unsafe_ops_sound.

(** C28, honest side.  On operands with different abscissae (non-zero ordinate for
    doubling) the unsafe operations succeed and leave a satisfied circuit. *)
Theorem C28_unsafe_ops_honest :
  forall (NM : NMod) w I, prime nmod -> prime w -> range_info_new w = Ok I -> (w_bits w + 13) mod 108 <> 0 ->
   forall c, wf c -> forall a x1 y1, nz_ok w c a valid -> nz_is w a_val a x1 y1 ->
    (forall a' x2 y2, nz_ok w c a' valid -> nz_is w a_val a' x2 y2 -> x1 <> x2 ->
        accepts c (ecc_add_unsafe I a a') (fun r c' => exists s x y, r = UOk s /\ nz_ok w c' s valid /\ nz_is w a_val s x y
            /\ pt_add w (Aff x1 y1) (Aff x2 y2) (Aff x y)))
 /\ ((2 * y1) mod w <> 0 ->
        accepts c (ecc_double_unsafe I a) (fun r c' => exists s x y, r = UOk s /\ nz_ok w c' s valid /\ nz_is w a_val s x y
            /\ pt_add w (Aff x1 y1) (Aff x1 y1) (Aff x y))).
Proof. exact C28_unsafe_ops_honest_main. Qed.
Print Assumptions C28_unsafe_ops_honest.
(** Non-vacuous: (1, 2) and (1, -2) can both be assigned; doubling (1, 2) meets the hypotheses. *)
Example C28_case : exists a c, @assign_non_zero_point bn256_fr bn_fq_info 3 (Some (1, 2)) ctx_new = Ok (a, c)
  /\ wf c /\ @nz_ok bn256_fr bn256_fq_p c a (@valid bn256_fr) /\ @nz_is bn256_fr bn256_fq_p a_val a 1 2 /\ (2 * 2) mod bn256_fq_p <> 0.
Proof.
  pose proof bn_fq_info_ok as HI. destruct C26_case as (_ & HD & C & _).
  pose proof (@good_new bn256_fr) as G0. assert (RB : 0 <= 3 < bn256_fq_p) by (split; [discriminate|reflexivity]).
  destruct (C26_honest_points_accepted bn256_fr bn256_fq_p bn_fq_info 3 bn256_fr_prime bn256_fq_p_prime HI RB HD ctx_new (Some (1, 2)) (good_wf _ G0) C)
    as (_ & _ & K). destruct (K 1 2 eq_refl) as (a & c & R & E & (O & V) & G). exists a, c.
  split; [exact R|]. split; [apply (good_wf _ (G G0))|]. split; [exact O|]. split; [exact V|]. vm_compute. discriminate.
Qed.

(** C29 is false of the code, for every pair of degenerate operands: when the honest
    operands have the same abscissa (or ordinate 0 for doubling) the operation panics
    inside [try_assert_false] instead of returning an UnsafeError; and whenever it
    returns, it returns [Ok]. *)
Theorem C29_degenerate_operands_retryable_refuted :
  (forall (NM : NMod) w I, prime nmod -> prime w -> range_info_new w = Ok I -> (w_bits w + 13) mod 108 <> 0 ->
   forall c, wf c -> forall a x1 y1, nz_ok w c a valid -> nz_is w a_val a x1 y1 ->
    (forall a' y2, nz_ok w c a' valid -> nz_is w a_val a' x1 y2 -> ecc_add_unsafe I a a' c = Panic)
 /\ ((2 * y1) mod w = 0 -> ecc_double_unsafe I a c = Panic))
 /\ (forall (NM : NMod) I a a' c r c', prime nmod ->
      ecc_add_unsafe I a a' c = Ok (r, c') \/ ecc_double_unsafe I a c = Ok (r, c') -> exists s, r = UOk s)
 /\ (exists a c, @assign_non_zero_point bn256_fr bn_fq_info 3 (Some (1, 2)) ctx_new = Ok (a, c)
      /\ @satisfies bn256_fr c (honest c) /\ @ecc_add_unsafe bn256_fr bn_fq_info a a c = Panic).
Proof. exact C29_degenerate_operands_retryable_refuted_main. Qed.
Print Assumptions C29_degenerate_operands_retryable_refuted.

(** C30.  [ecc_assert_equal] is satisfied only if both handles stand for the same point,
    and the honest prover can satisfy it whenever they do. *)
Theorem C30_point_equality_exact :
  forall (NM : NMod) w I, prime nmod -> prime w -> range_info_new w = Ok I ->
    (forall a a', sound (ecc_assert_equal I a a') (fun A _ => forall p, point_is w (at_ A) a p -> forall q, point_is w (at_ A) a' q -> p = q))
 /\ ((w_bits w + 13) mod 108 <> 0 -> forall c a a' p, wf c ->
       point_ok w c a valid -> point_is w a_val a p -> point_ok w c a' valid -> point_is w a_val a' p ->
       accepts c (ecc_assert_equal I a a') (fun _ _ => True)).
Proof. exact C30_point_equality_exact_main. Qed.
Print Assumptions C30_point_equality_exact.
(** Non-vacuous: the generator assigned as a witness and as a constant. *)
Example C30_case : exists c, (p <- @assign_point bn256_fr bn_fq_info 3 (Some (1, 2)) ;;
  q <- @assign_constant_point bn256_fr bn_fq_info (Some (1, 2)) ;; @ecc_assert_equal bn256_fr bn_fq_info p q) ctx_new = Ok (tt, c)
  /\ @satisfies bn256_fr c (honest c).
Proof.
  pose proof bn_fq_info_ok as HI. destruct C26_case as (_ & HD & C & _). pose proof bn256_fr_prime as PN. pose proof bn256_fq_p_prime as PW.
  pose proof (@good_new bn256_fr) as G0. assert (RB : 0 <= 3 < bn256_fq_p) by (split; [discriminate|reflexivity]).
  destruct (C26_honest_points_accepted bn256_fr bn256_fq_p bn_fq_info 3 PN PW HI RB HD ctx_new (Some (1, 2)) (good_wf _ G0) C)
    as ((p & c1 & R1 & E1 & (O1 & V1) & G1) & _). specialize (G1 G0).
  destruct (C26_honest_points_accepted bn256_fr bn256_fq_p bn_fq_info 3 PN PW HI RB HD c1 (Some (1, 2)) (good_wf _ G1) C)
    as (_ & (q & c2 & R2 & E2 & (O2 & V2) & G2) & _). specialize (G2 G1).
  assert (O1' : point_ok bn256_fq_p c2 p valid) by (eapply point_ok_mono; eauto).
  destruct (C30_point_equality_exact bn256_fr bn256_fq_p bn_fq_info PN PW HI) as (_ & K).
  destruct (K HD c2 p q _ (good_wf _ G2) O1' V1 O2 V2) as ([] & c3 & R3 & E3 & _ & G3).
  exists c3. split; [unfold mbind; rewrite R1; unfold mbind; rewrite R2; exact R3|].
  apply good_satisfies; [apply (n_pos PN)|auto].
Qed.

(** C31, what holds: over a base field of three limbs (at most 324 bits, e.g. bn256) with
    b not 0 there is one decoding function that recovers the point from the encoding
    in every satisfying assignment, so equal encodings stem from equal points.
    Missing: base fields of more than three limbs, for which the property is false,
    see below. *)
Theorem C31_encoding_determines_point_partial :
  forall (NM : NMod) w I b, prime nmod -> prime w -> range_info_new w = Ok I -> 2 ^ 216 <= nmod ->
    n_limbs w = 3 -> 0 < b < w ->
    exists decode : list Z -> pt, forall a, sound (ecc_encode I a) (fun A r => forall p,
      point_is w (at_ A) a p -> on_curve w b p -> decode (map (at_ A) r) = p).
Proof. exact C31_encoding_determines_point_partial_main. Qed.
Print Assumptions C31_encoding_determines_point_partial.
(** Non-vacuous: the hypotheses hold of bn256. *)
Example C31_case : @range_info_new bn256_fr bn256_fq_p = Ok bn_fq_info /\ 2 ^ 216 <= @nmod bn256_fr /\ n_limbs bn256_fq_p = 3 /\ 0 < 3 < bn256_fq_p.
Proof. split; [exact bn_fq_info_ok|]. vm_compute. repeat split; congruence. Qed.

(** C31 is false over bls12-381, whose base field has four limbs: the encoding drops
    limb 3 of both coordinates.  The source argues in a comment that collisions are hard
    to find; these are two different points of the curve with the same honest encoding. *)
Theorem C31_encoding_determines_point_refuted :
  exists p q r1 r2 c1 c2, p <> q
    /\ on_curve bls12_381_fq_p 4 (pt_of (Some p)) /\ on_curve bls12_381_fq_p 4 (pt_of (Some q))
    /\ (a <- @assign_point bn256_fr bls_fq_info 4 (Some p) ;; @ecc_encode bn256_fr bls_fq_info a) ctx_new = Ok (r1, c1)
    /\ (a <- @assign_point bn256_fr bls_fq_info 4 (Some q) ;; @ecc_encode bn256_fr bls_fq_info a) ctx_new = Ok (r2, c2)
    /\ @satisfies bn256_fr c1 (honest c1) /\ @satisfies bn256_fr c2 (honest c2)
    /\ map a_val r1 = map a_val r2.
Proof. exact C31_encoding_determines_point_refuted_main. Qed.
Print Assumptions C31_encoding_determines_point_refuted.

(** C32, what holds: for the honest prover the encoding is a fixed function of the point
    (the lowest 324 bits of the canonical coordinates, 0 for the identity).
    Missing: other satisfying assignments, for which the property is false, see below. *)
Theorem C32_encoding_is_a_function_partial :
  forall (NM : NMod) w I, prime nmod -> prime w -> range_info_new w = Ok I -> 2 ^ 216 <= nmod ->
    exists encode : pt -> list Z, forall c a p, wf c -> point_ok w c a valid -> point_is w a_val a p ->
      accepts c (ecc_encode I a) (fun r c' => Forall (valid c') r /\ map a_val r = encode p).
Proof. exact C32_encoding_is_a_function_partial_main. Qed.
Print Assumptions C32_encoding_is_a_function_partial.

(** C32 is false of the code: for the one circuit that assigns a point of bn256 and
    encodes it there are two satisfying assignments in which the point is the generator
    (1, 2) but the encodings differ (the coordinate 1 may be represented by 1 or by
    1 + q, and [ecc_reduce] leaves integers with overflow count 1 as they are). *)
Theorem C32_encoding_is_a_function_refuted :
  exists a e c A1 A2,
    (a <- @assign_point bn256_fr bn_fq_info 3 (Some (1, 2)) ;; e <- @ecc_encode bn256_fr bn_fq_info a ;; mret (a, e)) ctx_new = Ok ((a, e), c)
    /\ @satisfies bn256_fr c A1 /\ @satisfies bn256_fr c A2
    /\ @point_is bn256_fr bn256_fq_p (at_ A1) a (Aff 1 2) /\ @point_is bn256_fr bn256_fq_p (at_ A2) a (Aff 1 2)
    /\ map (at_ A1) e <> map (at_ A2) e.
Proof. exact C32_encoding_is_a_function_refuted_main. Qed.
Print Assumptions C32_encoding_is_a_function_refuted.

(** C26, C51: without the agreement of the [assign_bit] cells the identity flag of an
    assigned point need not be a bit: here it is 2 in a satisfying assignment of the
    circuit that assigns the generator.  (Every later selection on that flag is then
    a free linear combination.) *)
Theorem C26_identity_flag_refuted :
  exists a c A, @assign_point bn256_fr bn_fq_info 3 (Some (1, 2)) ctx_new = Ok (a, c)
    /\ @satisfies bn256_fr c A /\ A⟦p_z a⟧ = 2.
Proof. exact C26_identity_flag_refuted_main. Qed.
Print Assumptions C26_identity_flag_refuted.

