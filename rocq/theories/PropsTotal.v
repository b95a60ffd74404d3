(** PROPERTY C57: an honest multi-scalar multiplication completes when none of the additions
    it performs is degenerate (src/circuit/ecc_chip.rs:98-523,
    native_scalar_ecc_chip.rs, general_scalar_ecc_chip.rs).

    SpecSchedule.v: [msm_schedule], the additions performed, in terms of points only.
    Spec.v: [good c] says that the witness recorded in [c] satisfies the circuit
    recorded in [c].  SpecEcc.v, SpecMsm.v: points, [lin_sum].
    SpecCalls.v: [calls] are histories of calls on one context. *)
From Verif Require Import Prelude FieldZ Circuit Context Spec Logic BaseChip RangeInfo RangeChip IntegerChip
  SpecInt EccChip SpecEcc SpecMsm ScalarChip Msm SpecSelect SpecCalls SpecSchedule BnOrder Moduli Fields BaseProofs InfoProofs IntRes EccBridge EccEncode EccMain PropsEcc PropsSelect TotalMain.
(** C57, native scalars.  Let the points recorded in a satisfied context be on the curve,
    as many as scalars and at least one; with the select chip, at most 2^20 of them and a
    prefix below 2^28.  If all the additions of the schedule are possible, with groups of at
    most 5 points with the select chip and 2 without, then [msm] returns, the circuit is
    satisfied by what was recorded, and the result is the sum of s_i P_i when n annihilates
    the points (with the select chip: after any history of calls). *)
Theorem C57_msm_native_completes :
  forall (NM : NMod) w I b, prime nmod -> prime w -> range_info_new w = Ok I -> 3 < w -> 0 < b < w ->
    (w_bits w + 13) mod 108 <> 0 -> Z.of_nat (ri_limbs I) < 2 ^ 62 ->
  forall c xg yg xa ya xl yl prefix points ps scalars,
    good c -> Forall (on_curve w b) [Aff xg yg; Aff xa ya; Aff xl yl] ->
    Forall (fun a => point_ok w c a valid) points -> Forall2 (point_is w a_val) points ps -> Forall (on_curve w b) ps ->
    Forall (valid c) scalars ->
    length points = length scalars -> points <> [] ->
    (forall p, prefix = Some p -> Z.of_nat (length points) <= 2 ^ 20 /\ p < 2 ^ 28) ->
    let inputs := combine ps (map a_val scalars) in
    msm_schedule w (if prefix then 5 else 2) (Z.to_nat (Z.log2 nmod + 1)) (Aff xg yg) (Aff xa ya) (Aff xl yl) inputs ->
    exists r prefix' c',
      msm_native I b (Some (xg, yg)) (Some (xa, ya)) (Some (xl, yl)) prefix points scalars c = Ok ((r, prefix'), c')
   /\ extends c c' /\ good c' /\ satisfies c' (honest c') /\ point_ok w c' r valid
   /\ ((forall p, prefix = Some p -> calls (ctx_new, 0) (c, p)) ->
       (forall p, In p ps -> multiple w p nmod Inf) -> (In Inf ps -> forall g, on_curve w b g -> multiple w g nmod Inf) ->
       exists q, point_is w a_val r q /\ on_curve w b q /\ lin_sum w inputs q).
Proof. exact C57_msm_native_completes_main. Qed.
Print Assumptions C57_msm_native_completes.
(** Non-vacuous: on bn256 G1 with its generator G = (1, 2), for every scalar v below
    n - 20, with and without the select chip, recording G and v and multiplying with the auxiliary
    points 3 G and 4 G meets the hypotheses, so that the call returns v G. *)
Example C57_case : forall v prefix, 0 <= v < bn256_fr_p - 20 -> prefix = None \/ prefix = Some 0 ->
  exists p s c xa ya xl yl r prefix' c' q,
    (p <- @assign_point bn256_fr bn_fq_info 3 (Some (1, 2)) ;; s <- assign v ;; mret (p, s)) ctx_new = Ok ((p, s), c)
  /\ multiple bn256_fq_p (Aff 1 2) 3 (Aff xa ya) /\ multiple bn256_fq_p (Aff 1 2) 4 (Aff xl yl)
  /\ @msm_native bn256_fr bn_fq_info 3 (Some (1, 2)) (Some (xa, ya)) (Some (xl, yl)) prefix [p] [s] c = Ok ((r, prefix'), c')
  /\ @satisfies bn256_fr c' (honest c') /\ @point_is bn256_fr bn256_fq_p a_val r q /\ multiple bn256_fq_p (Aff 1 2) v q.
Proof.
  intros v prefix Hv Hp. pose proof bn_fq_info_ok as HI. destruct C26_case as (_ & HD & C & _). pose proof bn256_fr_prime as PN. pose proof bn256_fq_p_prime as PW.
  pose proof (@good_new bn256_fr) as G0. assert (RB : 0 <= 3 < bn256_fq_p) by (split; [discriminate|reflexivity]).
  destruct (C26_honest_points_accepted bn256_fr bn256_fq_p bn_fq_info 3 PN PW HI RB HD ctx_new (Some (1, 2)) (good_wf _ G0) C)
    as ((p & c1 & R1 & E1 & (O1 & V1) & G1) & _). specialize (G1 G0).
  assert (NV : v + 20 < bn256_fr_p) by lia.
  assert (H5 : 0 <= v < @nmod bn256_fr) by (change (@nmod bn256_fr) with bn256_fr_p; lia).
  destruct (@CT_accepts bn256_fr _ _ _ _ (@assign_CT bn256_fr c1 v (good_wf _ G1) H5)) as (s & c2 & R2 & E2 & (V2 & Es) & G2). specialize (G2 G1).
  destruct (bn_schedule v (if prefix then 5 else 2)%nat (Z.to_nat (Z.log2 (@nmod bn256_fr) + 1))) as (xa & ya & xl & yl & M3 & M4 & C3 & C4 & HS); [destruct prefix; lia| |exact NV|].
  { split; [apply Hv|]. apply (Z.lt_trans _ bn256_fr_p); [lia|reflexivity]. }
  destruct (C57_msm_native_completes bn256_fr bn256_fq_p bn_fq_info 3 PN PW HI) with (c := c2) (xg := 1) (yg := 2) (xa := xa) (ya := ya) (xl := xl) (yl := yl)
    (prefix := prefix) (points := [p]) (ps := [Aff 1 2]) (scalars := [s]) as (r & q & c' & R & X & G' & S & V & K).
  - reflexivity.
  - split; reflexivity.
  - exact HD.
  - reflexivity.
  - exact G2.
  - constructor; [exact C|constructor; [exact C3|constructor; [exact C4|constructor]]].
  - constructor; [|constructor]. eapply point_ok_mono; [exact E2|exact O1].
  - constructor; [exact V1|constructor].
  - constructor; [exact C|constructor].
  - constructor; [exact V2|constructor].
  - reflexivity.
  - discriminate.
  - intros k Hk. destruct Hp as [-> | ->]; [discriminate|]. injection Hk as <-. split; [discriminate|reflexivity].
  - cbn [map combine]. rewrite Es. exact HS.
  - destruct K as (z & Z1 & Z2 & Z3).
    + intros k Hk. destruct Hp as [-> | ->]; [discriminate|]. injection Hk as <-.
      destruct (C49_other_gadgets_are_quiet bn256_fr) as (Q1 & _ & _ & _ & _ & _ & _ & _ & Q2 & _). destruct (Q2 bn_fq_info) as (_ & _ & _ & _ & _ & _ & _ & _ & Q3 & _).
      eapply calls_quiet; [eapply calls_quiet; [apply calls_none|apply (Q3 3 (Some (1, 2)))|exact R1]|apply (Q1 v)|exact R2].
    + intros k [<-|[]]. exact bn_generator_order.
    + intros [K|[]]. discriminate.
    + exists p, s, c2, xa, ya, xl, yl, r, q, c', z. split; [unfold mbind; rewrite R1; cbv beta iota; rewrite R2; reflexivity|].
      split; [exact M3|]. split; [exact M4|]. split; [exact R|]. split; [exact S|]. split; [exact Z1|].
      cbn [map combine] in Z3. rewrite Es in Z3. apply lin_one in Z3. exact Z3.
Qed.

(** C57 for scalars that are recorded foreign-field integers modulo a prime r; as
    [C57_msm_native_completes], with 108 bits for each limb of a scalar. *)
Theorem C57_msm_general_completes :
  forall (NM : NMod) w I b r J, prime nmod -> prime w -> range_info_new w = Ok I -> 3 < w -> 0 < b < w ->
    (w_bits w + 13) mod 108 <> 0 -> Z.of_nat (ri_limbs I) < 2 ^ 62 -> prime r -> range_info_new r = Ok J ->
  forall c xg yg xa ya xl yl prefix points ps scalars,
    good c -> Forall (on_curve w b) [Aff xg yg; Aff xa ya; Aff xl yl] ->
    Forall (fun a => point_ok w c a valid) points -> Forall2 (point_is w a_val) points ps -> Forall (on_curve w b) ps ->
    Forall (fun s => int_ok r c s valid) scalars ->
    length points = length scalars -> points <> [] ->
    (forall p, prefix = Some p -> Z.of_nat (length points) <= 2 ^ 20 /\ p < 2 ^ 28) ->
    let inputs := combine ps (map (fun s => int_value a_val s mod r) scalars) in
    msm_schedule w (if prefix then 5 else 2) (108 * ri_limbs J) (Aff xg yg) (Aff xa ya) (Aff xl yl) inputs ->
    exists x prefix' c',
      msm_general I J b (Some (xg, yg)) (Some (xa, ya)) (Some (xl, yl)) prefix points scalars c = Ok ((x, prefix'), c')
   /\ extends c c' /\ good c' /\ satisfies c' (honest c') /\ point_ok w c' x valid
   /\ ((forall p, prefix = Some p -> calls (ctx_new, 0) (c, p)) ->
       (forall p, In p ps -> multiple w p r Inf) -> (In Inf ps -> forall g, on_curve w b g -> multiple w g r Inf) ->
       exists q, point_is w a_val x q /\ on_curve w b q /\ lin_sum w inputs q).
Proof. exact C57_msm_general_completes_main. Qed.
Print Assumptions C57_msm_general_completes.
(** Non-vacuous: the schedule of the example above, for the 324 bits of scalars of the
    bls12-381 scalar field, is possible for every v below 2^250. *)
Example C57_general_case : forall v, 0 <= v < 2 ^ 250 -> exists J xa ya xl yl,
  @range_info_new bn256_fr bls12_381_fr_p = Ok J /\ multiple bn256_fq_p (Aff 1 2) 3 (Aff xa ya) /\ multiple bn256_fq_p (Aff 1 2) 4 (Aff xl yl)
  /\ msm_schedule bn256_fq_p 5 (108 * ri_limbs J) (Aff 1 2) (Aff xa ya) (Aff xl yl) [(Aff 1 2, v)].
Proof.
  intros v Hv. pose proof bls_fr_info_ok as HJ. eexists.
  destruct (bn_schedule v 5 (108 * ri_limbs bls_fr_info)) as (xa & ya & xl & yl & M3 & M4 & _ & _ & HS).
  - lia.
  - split; [apply Hv|]. apply (Z.lt_trans _ (2 ^ 250)); [apply Hv|reflexivity].
  - apply (Z.lt_trans _ (2 ^ 252)); [lia|reflexivity].
  - exists xa, ya, xl, yl. split; [exact HJ|]. auto.
Qed.

