(** PROPERTIES C58 and C59: reading a foreign-field integer back
    (src/circuit/integer_chip.rs:683-685) and the multiplication of one point by a
    scalar (src/circuit/ecc_chip.rs:418-420).

    SpecInt.v: [int_wf], [int_ok], [int_value].  SpecProg.v: programs of integer
    operations over the residues.  SpecEcc.v, SpecMsm.v: points, [multiple].
    SpecSchedule.v: the additions performed.  SpecCalls.v: histories of calls. *)
From Verif Require Import Prelude FieldZ Circuit Context Spec Logic BaseChip RangeInfo RangeChip IntegerChip
  SpecInt SpecProg IntProg EccChip SpecEcc SpecMsm ScalarChip Msm SpecSelect SpecCalls SpecSchedule BnOrder Moduli Fields BaseProofs InfoProofs IntRes IntCases EccBridge EccEncode EccMain PropsEcc PropsSelect TotalMain PropsTotal ReadMain.
(** C58.  Reading a well-formed integer back gives its residue, however many
    additions it has accumulated; after every program of integer operations that makes
    sense on its canonical inputs, reading back all its registers gives a result of the
    program over the residues, and the circuit is satisfied. *)
Theorem C58_read_back :
  forall (NM : NMod) w I, range_info_new w = Ok I ->
    (forall x, int_wf w a_val x -> get_w I x = int_value a_val x mod w)
 /\ (prime nmod -> prime w -> (w_bits w + 13) mod 108 <> 0 ->
     forall inputs prog, Forall (fun x => 0 <= x < w) inputs -> Forall (iop_ok w) prog -> ican w prog (inputs, []) ->
     forall c, wf c -> accepts c (run_prog I inputs prog) (fun r c' => exists s', isteps w prog (inputs, []) s'
       /\ map (get_w I) (fst (snd r)) = fst s')).
Proof. exact C58_read_back_main. Qed.
Print Assumptions C58_read_back.
(** Non-vacuous: unreduced sums, differences, a product and an inverse over bn256. *)
Example C58_case : exists r c', @run_prog bn256_fr bn_fq_info [bn256_fq_p - 1; 3]
    [IAdd 0 0; IAdd 2 1; ISub 3 0; IMul 3 4; IInvert 1; IMul 6 1] ctx_new = Ok (r, c')
  /\ @satisfies bn256_fr c' (honest c')
  /\ map (get_w bn_fq_info) (fst (snd r)) = [bn256_fq_p - 1; 3; bn256_fq_p - 2; 1; 2; 2; 14592161914559516814830937163504850059130874104865215775126025263096817472389; 1].
Proof.
  eapply (ieval_read (NM := bn256_fr) bn256_fq_p bn_fq_info [bn256_fq_p - 1; 3] _ (_, []));
    [apply bn256_fr_prime|apply bn256_fq_p_prime|apply bn_fq_info_ok|discriminate
    |repeat constructor; discriminate|repeat constructor; discriminate|vm_compute; reflexivity].
Qed.

(** C59, native scalars.  Let a recorded point P be on the curve and n annihilate it (and
    the curve, if P is the identity), with the select chip after any history of calls.
    Whenever [ecc_mul] returns, the circuit is satisfied by what was recorded and the
    result is the point s P of the curve; and it does return if the additions of the
    schedule are possible. *)
Theorem C59_ecc_mul_native :
  forall (NM : NMod) w I b, prime nmod -> prime w -> range_info_new w = Ok I -> 3 < w -> 0 < b < w ->
    (w_bits w + 13) mod 108 <> 0 -> Z.of_nat (ri_limbs I) < 2 ^ 62 ->
  forall c xg yg xa ya xl yl prefix a p s,
    good c -> Forall (on_curve w b) [Aff xg yg; Aff xa ya; Aff xl yl] ->
    point_ok w c a valid -> point_is w a_val a p -> on_curve w b p -> valid c s ->
    (forall k, prefix = Some k -> k < 2 ^ 28 /\ calls (ctx_new, 0) (c, k)) ->
    multiple w p nmod Inf -> (p = Inf -> forall g, on_curve w b g -> multiple w g nmod Inf) ->
    (forall x prefix' c', ecc_mul_native I b (Some (xg, yg)) (Some (xa, ya)) (Some (xl, yl)) prefix a s c = Ok ((x, prefix'), c') ->
       good c' /\ point_ok w c' x valid /\ exists q, point_is w a_val x q /\ on_curve w b q /\ multiple w p (a_val s) q)
 /\ (msm_schedule w (if prefix then 5 else 2) (Z.to_nat (Z.log2 nmod + 1)) (Aff xg yg) (Aff xa ya) (Aff xl yl) [(p, a_val s)] ->
     exists x prefix' c', ecc_mul_native I b (Some (xg, yg)) (Some (xa, ya)) (Some (xl, yl)) prefix a s c = Ok ((x, prefix'), c')).
Proof. exact C59_ecc_mul_native_main. Qed.
Print Assumptions C59_ecc_mul_native.
(** Non-vacuous: on bn256 G1 with its generator G = (1, 2) every scalar v below n - 20
    gives v G, with and without the select chip. *)
Example C59_case : forall v prefix, 0 <= v < bn256_fr_p - 20 -> prefix = None \/ prefix = Some 0 ->
  exists p s c xa ya xl yl r prefix' c' q,
    (p <- @assign_point bn256_fr bn_fq_info 3 (Some (1, 2)) ;; s <- assign v ;; mret (p, s)) ctx_new = Ok ((p, s), c)
  /\ @ecc_mul_native bn256_fr bn_fq_info 3 (Some (1, 2)) (Some (xa, ya)) (Some (xl, yl)) prefix p s c = Ok ((r, prefix'), c')
  /\ @satisfies bn256_fr c' (honest c') /\ @point_is bn256_fr bn256_fq_p a_val r q /\ multiple bn256_fq_p (Aff 1 2) v q.
Proof.
  intros v prefix Hv Hp.
  destruct (C57_case v prefix Hv Hp) as (p & s & c & xa & ya & xl & yl & r & k & c' & q & R1 & _ & _ & R2 & S & V & Q).
  exists p, s, c, xa, ya, xl, yl, r, k, c', q. split; [exact R1|]. split; [rewrite ecc_mul_native_msm; exact R2|]. auto.
Qed.
(** C59 for a scalar that is a recorded foreign-field integer modulo a prime r. *)
Theorem C59_ecc_mul_general :
  forall (NM : NMod) w I b r J, prime nmod -> prime w -> range_info_new w = Ok I -> 3 < w -> 0 < b < w ->
    (w_bits w + 13) mod 108 <> 0 -> Z.of_nat (ri_limbs I) < 2 ^ 62 -> prime r -> range_info_new r = Ok J ->
  forall c xg yg xa ya xl yl prefix a p s,
    good c -> Forall (on_curve w b) [Aff xg yg; Aff xa ya; Aff xl yl] ->
    point_ok w c a valid -> point_is w a_val a p -> on_curve w b p -> int_ok r c s valid ->
    (forall k, prefix = Some k -> k < 2 ^ 28 /\ calls (ctx_new, 0) (c, k)) ->
    multiple w p r Inf -> (p = Inf -> forall g, on_curve w b g -> multiple w g r Inf) ->
    (forall x prefix' c', ecc_mul_general I J b (Some (xg, yg)) (Some (xa, ya)) (Some (xl, yl)) prefix a s c = Ok ((x, prefix'), c') ->
       good c' /\ point_ok w c' x valid /\ exists q, point_is w a_val x q /\ on_curve w b q /\ multiple w p (int_value a_val s mod r) q)
 /\ (msm_schedule w (if prefix then 5 else 2) (108 * ri_limbs J) (Aff xg yg) (Aff xa ya) (Aff xl yl) [(p, int_value a_val s mod r)] ->
     exists x prefix' c', ecc_mul_general I J b (Some (xg, yg)) (Some (xa, ya)) (Some (xl, yl)) prefix a s c = Ok ((x, prefix'), c')).
Proof. exact C59_ecc_mul_general_main. Qed.
Print Assumptions C59_ecc_mul_general.
(** Non-vacuous: G and an integer scalar v below 2^250 modulo the order of G, with the
    select chip and without. *)
Example C59_general_case : forall v prefix, 0 <= v < 2 ^ 250 -> prefix = None \/ prefix = Some 0 ->
  exists p s c xa ya xl yl r prefix' c' q,
    (p <- @assign_point bn256_fr bn_fq_info 3 (Some (1, 2)) ;; s <- @assign_w bn256_fr bn_fr_info v ;; mret (p, s)) ctx_new = Ok ((p, s), c)
  /\ @ecc_mul_general bn256_fr bn_fq_info bn_fr_info 3 (Some (1, 2)) (Some (xa, ya)) (Some (xl, yl)) prefix p s c = Ok ((r, prefix'), c')
  /\ @good bn256_fr c' /\ @point_is bn256_fr bn256_fq_p a_val r q /\ multiple bn256_fq_p (Aff 1 2) v q.
Proof.
  intros v prefix Hv Hp. pose proof bn_fq_info_ok as HI. pose proof bn_fr_info_ok as HJ. pose proof (range_info_ok _ _ HJ) as JO.
  destruct C26_case as (_ & HD & C & _). pose proof bn256_fr_prime as PN. pose proof bn256_fq_p_prime as PW.
  pose proof (@good_new bn256_fr) as G0. assert (RB : 0 <= 3 < bn256_fq_p) by (split; [discriminate|reflexivity]).
  destruct (C26_honest_points_accepted bn256_fr bn256_fq_p bn_fq_info 3 PN PW HI RB HD ctx_new (Some (1, 2)) (good_wf _ G0) C)
    as ((p & c1 & R1 & E1 & (O1 & V1) & G1) & _). specialize (G1 G0).
  assert (NV : v + 20 < bn256_fr_p) by (apply (Z.lt_trans _ (2 ^ 252)); [lia|reflexivity]).
  assert (H5 : 0 <= v < bn256_fr_p) by lia.
  destruct (@CT_accepts bn256_fr _ _ _ _ (assign_w_C bn256_fr_p _ JO PN PN c1 v (good_wf _ G1) H5)) as (s & c2 & R2 & E2 & Hs & G2). specialize (G2 G1).
  apply (cr_ok _ _ JO) in Hs. destruct Hs as [Hs Es0].
  assert (Es : int_value a_val s mod bn256_fr_p = v) by (transitivity (v mod bn256_fr_p); [exact Es0|apply Z.mod_small, H5]).
  destruct (bn_schedule v (if prefix then 5 else 2)%nat (108 * ri_limbs bn_fr_info)) as (xa & ya & xl & yl & M3 & M4 & C3 & C4 & HS); [destruct prefix; lia| |exact NV|].
  { split; [apply Hv|]. apply (Z.lt_trans _ bn256_fr_p); [lia|reflexivity]. }
  destruct (C59_ecc_mul_general bn256_fr bn256_fq_p bn_fq_info 3 bn256_fr_p bn_fr_info PN PW HI) with (c := c2) (xg := 1) (yg := 2) (xa := xa) (ya := ya) (xl := xl) (yl := yl)
    (prefix := prefix) (a := p) (p := Aff 1 2) (s := s) as (K1 & K2).
  - reflexivity.
  - split; reflexivity.
  - exact HD.
  - reflexivity.
  - exact PN.
  - exact HJ.
  - exact G2.
  - constructor; [exact C|constructor; [exact C3|constructor; [exact C4|constructor]]].
  - eapply point_ok_mono; [exact E2|exact O1].
  - exact V1.
  - exact C.
  - exact Hs.
  - intros k Hk. destruct Hp as [-> | ->]; [discriminate|]. injection Hk as <-. split; [reflexivity|].
    destruct (C49_other_gadgets_are_quiet bn256_fr) as (_ & _ & _ & _ & _ & _ & _ & _ & Q2 & _).
    eapply calls_quiet; [eapply calls_quiet; [apply calls_none| |exact R1]| |exact R2].
    + destruct (Q2 bn_fq_info) as (_ & _ & _ & _ & _ & _ & _ & _ & Q3 & _). apply (Q3 3 (Some (1, 2))).
    + destruct (Q2 bn_fr_info) as (Q4 & _). apply Q4.
  - exact bn_generator_order.
  - discriminate.
  - destruct K2 as (r & k & c' & R); [rewrite Es; exact HS|].
    destruct (K1 r k c' R) as (G' & _ & q & Q1 & _ & Q2). rewrite Es in Q2.
    exists p, s, c2, xa, ya, xl, yl, r, k, c', q. split; [unfold mbind; rewrite R1; cbv beta iota; rewrite R2; reflexivity|]. auto.
Qed.
