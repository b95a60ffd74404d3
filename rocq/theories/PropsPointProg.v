(** PROPERTY C61: straight-line programs of point operations
    (src/circuit/ecc_chip.rs, trait EccChipBaseOps; the interpreter [run_pops] of PointProg.v
    calls one gadget per operation).

    SpecPointProg.v: the operations and their meaning [psteps w zs prog ps ps'] in the group of the
    curve, from point registers ps (with booleans zs) to ps'.  SpecEcc.v: [point_is w f a p], [on_curve].
    [sound], [accepts] are as in PropsNative.v.  A program is a list of operations, each with a
    flag that says which of the two gadgets computes the tangent slope. *)
From Verif Require Import Prelude FieldZ Circuit Context Spec Logic ModArith BaseChip BaseProofs RangeInfo RangeChip IntegerChip
  SpecInt EccChip SpecEcc Curve EccEncode IntRes Moduli Fields SpecPointProg PointProg PointProgMain PropsEcc.

(** C61, all assignments.  Whatever the initial registers stand for (points of the curve), in every satisfying assignment
    the registers after the program stand for the result of the program in the group of the curve; in
    particular the asserted equalities hold. *)
Theorem C61_point_programs_sound :
  forall (NM : NMod) w I b ord, prime nmod -> prime w -> range_info_new w = Ok I -> 0 <= b < w ->
  forall prog, Forall (fun op => pop_ok w b (snd op)) prog ->
  forall bs rs, sound (run_pops I ord bs rs prog) (fun A rs' =>
    forall zs ps, Forall2 (fun k z => A⟦k⟧ = Z.b2z z) bs zs -> Forall2 (point_is w (at_ A)) rs ps -> Forall (on_curve w b) ps ->
    exists ps', psteps w zs (map snd prog) ps ps' /\ Forall2 (point_is w (at_ A)) rs' ps' /\ Forall (on_curve w b) ps').
Proof. exact C61_point_programs_sound_main. Qed.
Print Assumptions C61_point_programs_sound.

(** C61, honest runs.  A program of any length that makes sense in the group (registers exist,
    asserted equalities hold) never panics, leaves a satisfied circuit, and its registers record
    its result. *)
Theorem C61_point_programs_honest :
  forall (NM : NMod) w I b ord, prime nmod -> prime w -> range_info_new w = Ok I -> 0 <= b < w ->
    (w_bits w + 13) mod 108 <> 0 -> Z.Odd ord -> 1 < ord ->
  forall prog, Forall (fun op => pop_ok w b (snd op)) prog ->
  forall c bs rs zs ps ps', wf c -> Forall (valid c) bs -> Forall2 (fun k z => a_val k = Z.b2z z) bs zs ->
    Forall (fun a => point_ok w c a valid) rs -> Forall2 (point_is w a_val) rs ps -> Forall (on_curve w b) ps ->
    psteps w zs (map snd prog) ps ps' ->
    accepts c (run_pops I ord bs rs prog) (fun rs' c' => Forall (fun a => point_ok w c' a valid) rs' /\ Forall2 (point_is w a_val) rs' ps').
Proof. exact C61_point_programs_honest_main. Qed.
Print Assumptions C61_point_programs_honest.

(** Non-vacuous: on bn256 G1, with P = (1, 2) and a true condition: 2P, P + 2P, 2P + P, assert that the last two are equal, -P, P - P,
    the identity, assert that these two are equal, the constant P, a selection, a reduction. *)
Example C61_case :
  let prog := [(false, PDouble 0); (true, PAdd 0 1); (false, PAdd 1 0); (false, PAssertEqual 2 3); (false, PNeg 0); (true, PAdd 0 4);
               (false, PIdentity); (false, PAssertEqual 5 6); (false, PConst (Some (1, 2))); (false, PSelect 0 2 7); (false, PReduce 8)] in
  exists p k c rs c' ps', (p <- @assign_point bn256_fr bn_fq_info 3 (Some (1, 2)) ;; k <- @assign_constant bn256_fr 1 ;; mret (p, k)) ctx_new = Ok ((p, k), c)
    /\ @run_pops bn256_fr bn_fq_info bn256_fr_p [k] [p] prog c = Ok (rs, c') /\ @satisfies bn256_fr c' (honest c')
    /\ psteps bn256_fq_p [true] (map snd prog) [Aff 1 2] ps' /\ length ps' = 10%nat /\ Forall2 (@point_is bn256_fr bn256_fq_p a_val) rs ps'.
Proof.
  intros prog. pose proof bn_fq_info_ok as HI. destruct C26_case as (_ & HD & C & _). pose proof bn256_fr_prime as PN. pose proof bn256_fq_p_prime as PW.
  pose proof (@good_new bn256_fr) as G0. assert (RB : 0 <= 3 < bn256_fq_p) by (split; [discriminate|reflexivity]).
  destruct (C26_honest_points_accepted bn256_fr bn256_fq_p bn_fq_info 3 PN PW HI RB HD ctx_new (Some (1, 2)) (good_wf _ G0) C)
    as ((p & c1 & R1 & E1 & (O1 & V1) & G1) & _). specialize (G1 G0).
  destruct (@CT_accepts bn256_fr _ _ _ _ (@assign_constant_CT bn256_fr c1 1 (good_wf _ G1) ltac:(split; [discriminate|reflexivity]))) as (k & c & R2 & E2 & (V2 & Ek) & G2). specialize (G2 G1).
  destruct (pt_add_total bn256_fq_p 3 PW (Aff 1 2) (Aff 1 2) C C) as (q2 & A2).
  pose proof (pt_add_on bn256_fq_p 3 PW _ _ _ C C A2) as C2.
  destruct (pt_add_total bn256_fq_p 3 PW (Aff 1 2) q2 C C2) as (q3 & A3).
  pose proof (pt_add_comm bn256_fq_p 3 _ _ _ C C2 A3) as A3'.
  assert (ST : exists ps', psteps bn256_fq_p [true] (map snd prog) [Aff 1 2] ps' /\ length ps' = 10%nat).
  { eexists. split.
    - cbn [prog map snd]. eapply psteps_cons; [do 2 eexists; split; [reflexivity|]; split; [exact A2|reflexivity]|].
      eapply psteps_cons; [do 3 eexists; split; [reflexivity|]; split; [reflexivity|]; split; [exact A3|reflexivity]|].
      eapply psteps_cons; [do 3 eexists; split; [reflexivity|]; split; [reflexivity|]; split; [exact A3'|reflexivity]|].
      eapply psteps_cons; [eexists; split; [reflexivity|]; split; reflexivity|].
      eapply psteps_cons; [eexists; split; [reflexivity|]; reflexivity|].
      eapply psteps_cons; [do 3 eexists; split; [reflexivity|]; split; [reflexivity|]; split; [apply add_opposite; reflexivity|reflexivity]|].
      eapply psteps_cons; [reflexivity|].
      eapply psteps_cons; [eexists; split; [reflexivity|]; split; reflexivity|].
      eapply psteps_cons; [reflexivity|].
      eapply psteps_cons; [do 3 eexists; split; [reflexivity|]; split; [reflexivity|]; split; [reflexivity|]; reflexivity|].
      eapply psteps_cons; [eexists; split; [reflexivity|]; reflexivity|]. apply psteps_nil.
    - reflexivity. }
  destruct ST as (ps' & ST & LEN).
  destruct (C61_point_programs_honest bn256_fr bn256_fq_p bn_fq_info 3 bn256_fr_p PN PW HI RB HD) with (prog := prog) (c := c) (bs := [k]) (rs := [p]) (zs := [true]) (ps := [Aff 1 2]) (ps' := ps')
    as (rs & c' & R3 & E3 & (O3 & V3) & G3).
  { exists (bn256_fr_p / 2). vm_compute. reflexivity. }
  { reflexivity. }
  { unfold prog. repeat (apply Forall_cons; [first [exact Logic.I|exact C]|]). apply Forall_nil. }
  { apply (good_wf _ G2). }
  { constructor; [exact V2|constructor]. }
  { constructor; [exact Ek|constructor]. }
  { constructor; [eapply point_ok_mono; eauto|constructor]. }
  { constructor; [exact V1|constructor]. }
  { constructor; [exact C|constructor]. }
  { exact ST. }
  exists p, k, c, rs, c', ps'. split; [unfold mbind; rewrite R1; unfold mbind; rewrite R2; reflexivity|]. split; [exact R3|].
  split; [apply good_satisfies; [apply (n_pos PN)|exact (G3 G2)]|]. auto.
Qed.
