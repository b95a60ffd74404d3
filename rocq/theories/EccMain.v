(** Proofs of the point-gadget properties (C26-C32) from the gadget lemmas. *)
From Verif Require Import Prelude FieldZ Circuit Context Spec Logic ModArith Prims BaseChip BaseProofs
  RangeInfo RangeChip IntegerChip SpecInt InfoProofs IntArith RangeProofs IntInv IntSound IntComplete IntBridge
  IntRes EccChip SpecEcc Curve EccArith EccProofs EccHonest EccBridge EccEncode
  Moduli Fields Checker FastCheck EccRuns NativeMain IntMain.
Lemma ST_all {NM : NMod} {X Y} T A (m : M X) (Q : Y -> X -> Prop) :
  (forall y, ST T A m (Q y)) -> ST T A m (fun x => forall y, Q y x).
Proof. intros H c x c' W R S y. eapply (H y); eauto. Qed.
Ltac stp p H := apply ST_all; intros p; apply ST_impl; intros H.
Ltac togp IO H x y z := let K := fresh "K" in apply (gp_of _ _ IO) in H as (x & y & z & H & K); subst.
Ltac togpc IO H x y z l k t := let K := fresh "K" in apply (gpc_of _ _ IO) in H as (x & y & z & l & k & H & K & t); subst.
Ltac tohp IO O H x y z := let K := fresh "K" in destruct (hp_of _ _ IO _ _ _ O H) as (x & y & z & ? & K); subst; clear H O.
Ltac tohpc IO O H x y z l k t := let K := fresh "K" in destruct (hpc_of _ _ IO _ _ _ O H) as (x & y & z & l & k & ? & K & t); subst; clear H O.
Ltac hd IO H := let HD := fresh "HD" in assert (HD := H); rewrite <- (hd_bits _ _ IO) in HD.

Lemma C26_points_on_curve_main :
  forall (NM : NMod) w I b, prime nmod -> prime w -> range_info_new w = Ok I -> 0 <= b < w ->
    (forall p, sound (assign_point I b p) (fun A r => int_wf w (at_ A) (p_x r) /\ int_wf w (at_ A) (p_y r)
        /\ (A⟦p_z r⟧ = 1 \/ on_curve w b (Aff (int_value (at_ A) (p_x r) mod w) (int_value (at_ A) (p_y r) mod w)))))
 /\ (forall p, sound_bits (assign_point I b p) (fun A r => exists q, point_is w (at_ A) r q /\ on_curve w b q))
 /\ (forall p, sound (assign_non_zero_point I b p) (fun A r => exists x y, nz_is w (at_ A) r x y /\ on_curve w b (Aff x y))).
Proof.
  intros NM w I b P PW H Hb. info H. split; [|split]; intros p.
  - tosound. eapply ST_wk; [apply (assign_point_R w I IO P PW b Hb T A HA)|].
    intros r (x & y & H1 & H2 & H3). apply (ir_at _ _ IO) in H1 as (W1 & E1). apply (ir_at _ _ IO) in H2 as (W2 & E2).
    split; [auto|]. split; [auto|]. unfold eqm in E1, E2. rewrite E1, E2. exact H3.
  - apply ST_sound_bits. intros T A HA HB. eapply ST_wk; [apply (assign_point_bit_R w I IO P PW b Hb T A HA p HB)|].
    intros r (x & y & z & H1 & H2). exists (dec w x y z). split; [apply (gp_to _ _ IO); auto|auto].
  - tosound. eapply ST_wk; [apply (assign_nz_R w I IO P PW b Hb T A HA)|].
    intros r (x & y & H1 & H2). exists x, y. split; [|auto].
    apply (gn_to _ _ IO) in H1. destruct H2 as (R1 & R2 & _). rewrite !Z.mod_small in H1 by auto. exact H1.
Qed.

Lemma C26_honest_points_accepted_main :
  forall (NM : NMod) w I b, prime nmod -> prime w -> range_info_new w = Ok I -> 0 <= b < w ->
    (w_bits w + 13) mod 108 <> 0 ->
    forall c p, wf c -> on_curve w b (pt_of p) ->
      accepts c (assign_point I b p) (fun r c' => point_ok w c' r valid /\ point_is w a_val r (pt_of p))
   /\ accepts c (assign_constant_point I p) (fun r c' => point_ok w c' r valid /\ point_is w a_val r (pt_of p))
   /\ (forall x y, p = Some (x, y) ->
        accepts c (assign_non_zero_point I b p) (fun r c' => nz_ok w c' r valid /\ nz_is w a_val r x y)).
Proof.
  intros NM w I b P PW H Hb HD0 c p W C. info H. hd IO HD0. split; [|split].
  - apply CT_accepts. eapply CT_weaken; [eapply (assign_point_C w I IO); eauto|]. intros r c' _ _ K.
    apply (hp_to _ _ IO) in K. rewrite (dec_of w PW b p C) in K. exact K.
  - apply CT_accepts. eapply CT_weaken; [eapply (assign_constant_point_C w I IO); eauto|]. intros r c' _ _ K.
    apply (hp_to _ _ IO) in K. rewrite (dec_of w PW b p C) in K. exact K.
  - intros x y ->. apply CT_accepts. eapply CT_weaken; [eapply (assign_nz_C w I IO); eauto|]. intros r c' _ _ K.
    apply (hn_to _ _ IO) in K. destruct C as (R1 & R2 & _). rewrite !Z.mod_small in K by auto. exact K.
Qed.

Lemma C27_group_law_sound_main :
  forall (NM : NMod) w I b ord, prime nmod -> prime w -> range_info_new w = Ok I -> 0 <= b < w ->
    (forall a a', sound (ecc_add I a a') (fun A r => forall p, pointc_is w (at_ A) a p -> forall q, point_is w (at_ A) a' q ->
        on_curve w b p -> on_curve w b q ->
        exists s, pt_add w p q s /\ on_curve w b s /\ point_is w (at_ A) r s))
 /\ (forall a, sound (ecc_double I ord a) (fun A r => forall p, pointc_is w (at_ A) a p -> on_curve w b p ->
        exists s, pt_add w p p s /\ on_curve w b s /\ point_is w (at_ A) r s))
 /\ (forall a, sound (ecc_neg I a) (fun A r => forall p, point_is w (at_ A) a p -> point_is w (at_ A) r (pt_neg w p)))
 /\ (forall a, sound (to_point_with_curvature I a) (fun A r => forall p, point_is w (at_ A) a p -> pointc_is w (at_ A) r p))
 /\ (forall a, sound (ecc_reduce_with_curvature I a) (fun A r => forall p, point_is w (at_ A) a p -> pointc_is w (at_ A) r p))
 /\ (forall a, sound (ecc_reduce I a) (fun A r => forall p, point_is w (at_ A) a p ->
        point_is w (at_ A) r p /\ i_times (p_x r) = 1 /\ i_times (p_y r) = 1))
 /\ (forall k a a', sound (bisec_point I k a a') (fun A r => forall p, point_is w (at_ A) a p -> forall q, point_is w (at_ A) a' q ->
        forall z, A⟦k⟧ = Z.b2z z -> point_is w (at_ A) r (if z then p else q)))
 /\ sound (assign_identity I) (fun A r => pointc_is w (at_ A) r Inf).
Proof.
  intros NM w I b ord P PW H Hb. info H.
  split; [|split; [|split; [|split; [|split; [|split; [|split]]]]]].
  - intros a a'. tosound. stp p Ha. stp q Hq. apply ST_impl; intros C1. apply ST_impl; intros C2.
    togpc IO Ha x1 y1 z1 l1 k1 T1. togp IO Hq x2 y2 z2.
    eapply ST_wk; [eapply (ecc_add_R w I IO); eauto|]. intros r (x & y & z & Hr & AD). eexists. split; [exact AD|].
    split; [eapply pt_add_on; [exact PW|exact C1|exact C2|exact AD]|apply (gp_to _ _ IO); exact Hr].
  - intros a. tosound. stp p Ha. apply ST_impl; intros C1. togpc IO Ha x1 y1 z1 l1 k1 T1.
    eapply ST_wk; [eapply (ecc_double_R w I IO); eauto|]. intros r (x & y & z & Hr & AD). eexists. split; [exact AD|].
    split; [eapply pt_add_on; [exact PW|exact C1|exact C1|exact AD]|apply (gp_to _ _ IO); exact Hr].
  - intros a. tosound. stp p Ha. togp IO Ha x y z. eapply ST_wk; [eapply (ecc_neg_R w I IO); eauto|].
    intros r Hr. rewrite <- neg_dec. apply (gp_to _ _ IO); exact Hr.
  - intros a. tosound. stp p Ha. togp IO Ha x y z. eapply ST_wk; [eapply (to_pointc_R w I IO); eauto|].
    intros r (l & k & Hr & TO). eapply (gpc_to _ _ IO); eauto.
  - intros a. tosound. stp p Ha. togp IO Ha x y z. eapply ST_wk; [eapply (ecc_reduce_with_curvature_R w I IO); eauto|].
    intros r (x' & y' & l & k & Hr & TO & E & _). rewrite <- E. eapply (gpc_to _ _ IO); eauto.
  - intros a. tosound. stp p Ha. togp IO Ha x y z. eapply ST_wk; [eapply (ecc_reduce_R w I IO); eauto|].
    intros r (Hr & T1 & T2). split; [|auto]. rewrite <- dec_reduced. apply (gp_to _ _ IO); exact Hr.
  - intros k a a'. tosound. stp p Ha. stp q Hq. stp z Hz. togp IO Ha x1 y1 z1. togp IO Hq x2 y2 z2.
    eapply ST_wk; [eapply (bisec_point_R w I IO); eauto|]. intros r (Hr & _). apply (gp_to _ _ IO) in Hr. destruct z; exact Hr.
  - tosound. eapply ST_wk; [eapply (assign_identity_R w I IO); eauto|]. intros r (Hr & _).
    apply (gpc_to _ _ IO) in Hr; [exact Hr|discriminate].
Qed.

Lemma C27_group_law_honest_main :
  forall (NM : NMod) w I b ord, prime nmod -> prime w -> range_info_new w = Ok I -> 0 <= b < w ->
    (w_bits w + 13) mod 108 <> 0 -> forall c, wf c ->
    (forall a a' p q, pointc_ok w c a valid -> pointc_is w a_val a p -> point_ok w c a' valid -> point_is w a_val a' q ->
        on_curve w b p -> on_curve w b q ->
        accepts c (ecc_add I a a') (fun r c' => point_ok w c' r valid /\ exists s, pt_add w p q s /\ point_is w a_val r s))
 /\ (forall a p, Z.Odd ord -> 1 < ord -> pointc_ok w c a valid -> pointc_is w a_val a p ->
        accepts c (ecc_double I ord a) (fun r c' => point_ok w c' r valid /\ exists s, pt_add w p p s /\ point_is w a_val r s))
 /\ (forall a p, point_ok w c a valid -> point_is w a_val a p ->
        accepts c (ecc_neg I a) (fun r c' => point_ok w c' r valid /\ point_is w a_val r (pt_neg w p))
     /\ accepts c (to_point_with_curvature I a) (fun r c' => pointc_ok w c' r valid /\ pointc_is w a_val r p)
     /\ accepts c (ecc_reduce_with_curvature I a) (fun r c' => pointc_ok w c' r valid /\ pointc_is w a_val r p)
     /\ accepts c (ecc_reduce I a) (fun r c' => point_ok w c' r valid /\ point_is w a_val r p)).
Proof.
  intros NM w I b ord P PW H Hb HD0 c W. info H. hd IO HD0. split; [|split].
  - intros a a' p q Oa Ha Oq Hq C1 C2. tohpc IO Oa Ha x1 y1 z1 l1 k1 T1. tohp IO Oq Hq x2 y2 z2. apply CT_accepts.
    eapply CT_weaken; [eapply (ecc_add_C w I IO); eauto|]. intros r c' _ _ (x & y & z & Hr & AD).
    apply (hp_to _ _ IO) in Hr as (O & V). eauto.
  - intros a p OD Hord Oa Ha. tohpc IO Oa Ha x1 y1 z1 l1 k1 T1. apply CT_accepts.
    eapply CT_weaken; [eapply (ecc_double_C w I IO); eauto|].
    { rewrite (Z_mod_nz_opp_full 1) by (rewrite Z.mod_small by lia; lia). rewrite Z.mod_small by lia.
      destruct OD as [m ->]. replace (2 * m + 1 - 1) with (2 * m) by lia. rewrite Z.odd_mul. reflexivity. }
    intros r c' _ _ (x & y & z & Hr & AD). apply (hp_to _ _ IO) in Hr as (O & V). eauto.
  - intros a p Oa Ha. tohp IO Oa Ha x y z. split; [|split; [|split]]; apply CT_accepts.
    + eapply CT_weaken; [eapply (ecc_neg_C w I IO); eauto|]. intros r c' _ _ Hr. rewrite <- neg_dec. apply (hp_to _ _ IO); auto.
    + eapply CT_weaken; [eapply (to_pointc_C w I IO); eauto|]. intros r c' _ _ (l & k & Hr & TO). eapply (hpc_to _ _ IO); eauto.
    + eapply CT_weaken; [eapply (ecc_reduce_with_curvature_C w I IO); eauto|].
      intros r c' _ _ (x' & y' & l & k & Hr & TO & E & _). rewrite <- E. eapply (hpc_to _ _ IO); eauto.
    + eapply CT_weaken; [eapply (ecc_reduce_C w I IO); eauto|]. intros r c' _ _ (Hr & _ & _).
      rewrite <- dec_reduced. apply (hp_to _ _ IO); auto.
Qed.

Lemma C28_unsafe_ops_sound_main :
  forall (NM : NMod) w I, prime nmod -> prime w -> range_info_new w = Ok I ->
    (forall a a', sound (ecc_add_unsafe I a a') (fun A r => forall x1 y1, nz_is w (at_ A) a x1 y1 -> forall x2 y2, nz_is w (at_ A) a' x2 y2 ->
        x1 <> x2 /\ exists s x y, r = UOk s /\ nz_is w (at_ A) s x y /\ pt_add w (Aff x1 y1) (Aff x2 y2) (Aff x y)))
 /\ (forall a, sound (ecc_double_unsafe I a) (fun A r => forall x1 y1, nz_is w (at_ A) a x1 y1 ->
        (2 * y1) mod w <> 0 /\ exists s x y, r = UOk s /\ nz_is w (at_ A) s x y /\ pt_add w (Aff x1 y1) (Aff x1 y1) (Aff x y)))
 /\ (forall a, sound (ecc_neg_non_zero I a) (fun A r => forall x y, nz_is w (at_ A) a x y -> nz_is w (at_ A) r x ((- y) mod w)))
 /\ (forall a a', sound (ecc_assert_equal_non_zero I a a') (fun A _ => forall x1 y1, nz_is w (at_ A) a x1 y1 -> forall x2 y2, nz_is w (at_ A) a' x2 y2 ->
        x1 = x2 /\ y1 = y2))
 /\ (forall a, sound (ecc_non_zero_point_downgrade a) (fun A r => forall x y, nz_is w (at_ A) a x y -> point_is w (at_ A) r (Aff x y))).
Proof.
  intros NM w I P PW H. info H.
  Local Ltac tn IO H := let E1 := fresh "E" in let E2 := fresh "E" in apply (gn_of _ _ IO) in H as (H & E1 & E2).
  split; [|split; [|split; [|split]]].
  - intros a a'. tosound. apply ST_all; intros x1. stp y1 Ha. apply ST_all; intros x2. stp y2 Hb. tn IO Ha. tn IO Hb.
    eapply ST_wk; [eapply (ecc_add_unsafe_R w I IO); eauto|]. intros r (NE & s & x & y & E' & Hs & AD).
    split; [congruence|]. exists s, (x mod w), (y mod w). split; [auto|]. split; [apply (gn_to _ _ IO); auto|].
    unfold dec in AD. congruence.
  - intros a. tosound. apply ST_all; intros x1. stp y1 Ha. tn IO Ha.
    eapply ST_wk; [eapply (ecc_double_unsafe_R w I IO); eauto|]. intros r (NE & s & x & y & E' & Hs & AD).
    split; [exact NE|]. exists s, (x mod w), (y mod w). split; [auto|]. split; [apply (gn_to _ _ IO); auto|].
    unfold dec in AD. congruence.
  - intros a. tosound. apply ST_all; intros x. stp y Ha. tn IO Ha. eapply ST_wk; [eapply (ecc_neg_nz_R w I IO); eauto|].
    intros r Hr. apply (gn_to _ _ IO) in Hr. rewrite <- E in Hr. exact Hr.
  - intros a a'. tosound. apply ST_all; intros x1. stp y1 Ha. apply ST_all; intros x2. stp y2 Hb. tn IO Ha. tn IO Hb.
    eapply ST_wk; [eapply (ecc_assert_equal_nz_R w I IO); eauto|]. intros r (E3 & E4). unfold eqm in *. split; congruence.
  - intros a. tosound. apply ST_all; intros x. stp y Ha. tn IO Ha. eapply ST_wk; [eapply (downgrade_R w I); eauto|].
    intros r Hr. apply (gp_to _ _ IO) in Hr. unfold dec in Hr. rewrite <- E, <- E0 in Hr. exact Hr.
Qed.

Lemma C28_unsafe_ops_honest_main :
  forall (NM : NMod) w I, prime nmod -> prime w -> range_info_new w = Ok I -> (w_bits w + 13) mod 108 <> 0 ->
   forall c, wf c -> forall a x1 y1, nz_ok w c a valid -> nz_is w a_val a x1 y1 ->
    (forall a' x2 y2, nz_ok w c a' valid -> nz_is w a_val a' x2 y2 -> x1 <> x2 ->
        accepts c (ecc_add_unsafe I a a') (fun r c' => exists s x y, r = UOk s /\ nz_ok w c' s valid /\ nz_is w a_val s x y
            /\ pt_add w (Aff x1 y1) (Aff x2 y2) (Aff x y)))
 /\ ((2 * y1) mod w <> 0 ->
        accepts c (ecc_double_unsafe I a) (fun r c' => exists s x y, r = UOk s /\ nz_ok w c' s valid /\ nz_is w a_val s x y
            /\ pt_add w (Aff x1 y1) (Aff x1 y1) (Aff x y))).
Proof.
  intros NM w I P PW H HD0 c W a x1 y1 Oa Ha. info H. hd IO HD0.
  destruct (hn_of _ _ IO _ _ _ _ Oa Ha) as (Na & E1 & E2). split.
  - intros a' x2 y2 Ob Hb NE. destruct (hn_of _ _ IO _ _ _ _ Ob Hb) as (Nb & E3 & E4). apply CT_accepts.
    eapply CT_weaken; [eapply (ecc_add_unsafe_C w I IO); eauto; congruence|].
    intros r c' _ _ (s & x & y & -> & Hs & AD). apply (hn_to _ _ IO) in Hs as (O & V).
    exists s, (x mod w), (y mod w). unfold dec in AD. rewrite <- E1, <- E2, <- E3, <- E4 in AD. auto.
  - intros NE. apply CT_accepts. eapply CT_weaken; [eapply (ecc_double_unsafe_C w I IO); eauto|].
    intros r c' _ _ (s & x & y & -> & Hs & AD). apply (hn_to _ _ IO) in Hs as (O & V).
    exists s, (x mod w), (y mod w). unfold dec in AD. rewrite <- E1, <- E2 in AD. auto.
Qed.

Lemma C29_degenerate_operands_retryable_refuted_main :
  (forall (NM : NMod) w I, prime nmod -> prime w -> range_info_new w = Ok I -> (w_bits w + 13) mod 108 <> 0 ->
   forall c, wf c -> forall a x1 y1, nz_ok w c a valid -> nz_is w a_val a x1 y1 ->
    (forall a' y2, nz_ok w c a' valid -> nz_is w a_val a' x1 y2 -> ecc_add_unsafe I a a' c = Panic)
 /\ ((2 * y1) mod w = 0 -> ecc_double_unsafe I a c = Panic))
 /\ (forall (NM : NMod) I a a' c r c', prime nmod ->
      ecc_add_unsafe I a a' c = Ok (r, c') \/ ecc_double_unsafe I a c = Ok (r, c') -> exists s, r = UOk s)
 /\ (exists a c, @assign_non_zero_point bn256_fr bn_fq_info 3 (Some (1, 2)) ctx_new = Ok (a, c)
      /\ @satisfies bn256_fr c (honest c) /\ @ecc_add_unsafe bn256_fr bn_fq_info a a c = Panic).
Proof.
  assert (G : forall (NM : NMod) w I, prime nmod -> prime w -> range_info_new w = Ok I -> (w_bits w + 13) mod 108 <> 0 ->
   forall c, wf c -> forall a x1 y1, nz_ok w c a valid -> nz_is w a_val a x1 y1 ->
    (forall a' y2, nz_ok w c a' valid -> nz_is w a_val a' x1 y2 -> ecc_add_unsafe I a a' c = Panic)
 /\ ((2 * y1) mod w = 0 -> ecc_double_unsafe I a c = Panic)).
  { intros NM w I P PW H HD0 c W a x1 y1 Oa Ha. info H. hd IO HD0.
    destruct (hn_of _ _ IO _ _ _ _ Oa Ha) as (Na & E1 & E2). split.
    - intros a' y2 Ob Hb. destruct (hn_of _ _ IO _ _ _ _ Ob Hb) as (Nb & E3 & E4).
      eapply (add_unsafe_degenerate w I IO); eauto.
    - intros E. eapply (double_unsafe_degenerate w I IO); eauto. }
  split; [exact G|]. split.
  - intros NM I a a' c r c' P. apply unsafe_ok. apply (n_pos P).
  - pose proof bn_fq_info_ok as HI. assert (HD : (w_bits bn256_fq_p + 13) mod 108 <> 0) by (vm_compute; discriminate).
    assert (C : on_curve bn256_fq_p 3 (Aff 1 2)) by (split; [|split]; [split; [discriminate|reflexivity]..|reflexivity]).
    pose proof (@good_new bn256_fr) as G0. assert (RB : 0 <= 3 < bn256_fq_p) by (split; [discriminate|reflexivity]).
    destruct (C26_honest_points_accepted_main bn256_fr bn256_fq_p bn_fq_info 3 bn256_fr_prime bn256_fq_p_prime HI RB HD ctx_new (Some (1, 2)) (good_wf _ G0) C)
      as (_ & _ & K). destruct (K 1 2 eq_refl) as (a & c & R & E & (O & V) & G1). specialize (G1 G0). exists a, c.
    split; [exact R|]. split; [apply good_satisfies; [apply (n_pos bn256_fr_prime)|auto]|].
    destruct (G bn256_fr bn256_fq_p bn_fq_info bn256_fr_prime bn256_fq_p_prime HI HD c (good_wf _ G1) a 1 2 O V) as (GA & _). exact (GA a 2 O V).
Qed.

Lemma C30_point_equality_exact_main :
  forall (NM : NMod) w I, prime nmod -> prime w -> range_info_new w = Ok I ->
    (forall a a', sound (ecc_assert_equal I a a') (fun A _ => forall p, point_is w (at_ A) a p -> forall q, point_is w (at_ A) a' q -> p = q))
 /\ ((w_bits w + 13) mod 108 <> 0 -> forall c a a' p, wf c ->
       point_ok w c a valid -> point_is w a_val a p -> point_ok w c a' valid -> point_is w a_val a' p ->
       accepts c (ecc_assert_equal I a a') (fun _ _ => True)).
Proof.
  intros NM w I P PW H. info H. split.
  - intros a a'. tosound. stp p Ha. stp q Hq. togp IO Ha x1 y1 z1. togp IO Hq x2 y2 z2.
    eapply (ecc_assert_equal_R w I IO); eauto.
  - intros HD0 c a a' p W Oa Ha Ob Hb. hd IO HD0. tohp IO Oa Ha x1 y1 z1.
    destruct (hp_of _ _ IO _ _ _ Ob Hb) as (x2 & y2 & z2 & N2 & E). apply CT_accepts.
    eapply (ecc_assert_equal_C w I IO); eauto.
Qed.

Lemma C31_encoding_determines_point_partial_main :
  forall (NM : NMod) w I b, prime nmod -> prime w -> range_info_new w = Ok I -> 2 ^ 216 <= nmod ->
    n_limbs w = 3 -> 0 < b < w ->
    exists decode : list Z -> pt, forall a, sound (ecc_encode I a) (fun A r => forall p,
      point_is w (at_ A) a p -> on_curve w b p -> decode (map (at_ A) r) = p).
Proof.
  intros NM w I b P PW H NB L3 Hb. info H.
  exists (fun l => if (enc_x l mod w =? 0) && (enc_y l mod w =? 0) then Inf else Aff (enc_x l mod w) (enc_y l mod w)).
  intros a. tosound. stp p Ha. apply ST_impl; intros C. togp IO Ha x y z.
  assert (L3' : ri_limbs I = 3%nat).
  { pose proof (io_limbs _ _ IO) as K. rewrite (wb_w_bits _ _ IO) in K. unfold n_limbs in L3. lia. }
  eapply ST_wk; [eapply (ecc_encode_R w I IO P PW T A HA L3' NB); eauto|]. intros r (E1 & E2).
  change (map (at_ A) r) with (map (vA A) r). unfold eqm in E1, E2. rewrite E1, E2. destruct z.
  - rewrite Z.mod_0_l by (pose proof (w_pos w PW); lia). reflexivity.
  - destruct C as (_ & _ & C). destruct ((x mod w =? 0) && (y mod w =? 0)) eqn:E; [|reflexivity]. exfalso.
    apply andb_prop in E as [Ex Ey]. apply Z.eqb_eq in Ex, Ey. rewrite Ex, Ey in C.
    rewrite !Z.mul_0_l, Z.add_0_l, Z.mod_0_l in C by lia. rewrite Z.mod_small in C by lia. lia.
Qed.

Lemma C31_encoding_determines_point_refuted_main :
  exists p q r1 r2 c1 c2, p <> q
    /\ on_curve bls12_381_fq_p 4 (pt_of (Some p)) /\ on_curve bls12_381_fq_p 4 (pt_of (Some q))
    /\ (a <- @assign_point bn256_fr bls_fq_info 4 (Some p) ;; @ecc_encode bn256_fr bls_fq_info a) ctx_new = Ok (r1, c1)
    /\ (a <- @assign_point bn256_fr bls_fq_info 4 (Some q) ;; @ecc_encode bn256_fr bls_fq_info a) ctx_new = Ok (r2, c2)
    /\ @satisfies bn256_fr c1 (honest c1) /\ @satisfies bn256_fr c2 (honest c2)
    /\ map a_val r1 = map a_val r2.
Proof.
  pose proof bls_fq_info_ok as HI. info HI.
  assert (NB : 2 ^ 216 <= @nmod bn256_fr) by (vm_compute; discriminate).
  assert (HD : ri_d_bits bls_fq_info mod 108 <> 0) by (vm_compute; discriminate).
  pose proof bn256_fr_prime as PN. pose proof bls12_381_fq_p_prime as PW.
  pose proof (@good_new bn256_fr) as G0. assert (RB : 0 <= 4 < bls12_381_fq_p) by (split; [discriminate|reflexivity]).
  assert (K : forall x y, on_curve bls12_381_fq_p 4 (Aff x y) -> exists r c,
    (a <- @assign_point bn256_fr bls_fq_info 4 (Some (x, y)) ;; @ecc_encode bn256_fr bls_fq_info a) ctx_new = Ok (r, c)
    /\ @satisfies bn256_fr c (honest c) /\ map a_val r = encoding x y).
  { intros x y C.
    assert (@CT bn256_fr _ ctx_new (a <- @assign_point bn256_fr bls_fq_info 4 (Some (x, y)) ;; @ecc_encode bn256_fr bls_fq_info a)
       (fun r c => map a_val r = encoding x y)) as HC.
    { eapply CT_bind; [eapply (assign_point_C bls12_381_fq_p bls_fq_info IO PN PW HD 4 RB); [apply (good_wf _ G0)|exact C]|].
      intros a c W _ Ha. cbv beta in Ha. eapply CT_weaken; [eapply (ecc_encode_C bls12_381_fq_p bls_fq_info IO PN PW NB); eauto|].
      intros r c' _ _ (_ & E). rewrite E. cbn [is_identity coords fst snd]. destruct C as (R1 & R2 & _).
      rewrite !Z.mod_small by auto. reflexivity. }
    apply CT_accepts in HC.
    destruct (accepts_witnessed bn256_fr _ _ _ PN G0 HC) as (r & c & R & _ & S & Q).
    exists r, c. auto. }
  assert (C1 : on_curve bls12_381_fq_p 4 (Aff col_x col_y)) by (split; [|split]; [split; [discriminate|reflexivity]..|vm_compute; reflexivity]).
  assert (C2 : on_curve bls12_381_fq_p 4 (Aff (col_x + 2 ^ 324) (col_y + 2 ^ 324))) by (split; [|split]; [split; [discriminate|reflexivity]..|vm_compute; reflexivity]).
  destruct (K _ _ C1) as (r1 & c1 & R1 & S1 & E1). destruct (K _ _ C2) as (r2 & c2 & R2 & S2 & E2).
  exists (col_x, col_y), (col_x + 2 ^ 324, col_y + 2 ^ 324), r1, r2, c1, c2.
  split; [intros E; injection E; vm_compute; discriminate|]. split; [exact C1|]. split; [exact C2|].
  split; [exact R1|]. split; [exact R2|]. split; [exact S1|]. split; [exact S2|].
  rewrite E1, E2. vm_compute. reflexivity.
Qed.

Lemma C32_encoding_is_a_function_partial_main :
  forall (NM : NMod) w I, prime nmod -> prime w -> range_info_new w = Ok I -> 2 ^ 216 <= nmod ->
    exists encode : pt -> list Z, forall c a p, wf c -> point_ok w c a valid -> point_is w a_val a p ->
      accepts c (ecc_encode I a) (fun r c' => Forall (valid c') r /\ map a_val r = encode p).
Proof.
  intros NM w I P PW H NB. info H.
  exists (fun p => match p with Inf => encoding 0 0 | Aff x y => encoding x y end).
  intros c a p W Oa Ha. tohp IO Oa Ha x y z. apply CT_accepts.
  eapply CT_weaken; [eapply (ecc_encode_C w I IO P PW NB); eauto|]. intros r c' _ _ (V & E). split; [exact V|]. rewrite E. destruct z; reflexivity.
Qed.

Lemma C32_encoding_is_a_function_refuted_main :
  exists a e c A1 A2,
    (a <- @assign_point bn256_fr bn_fq_info 3 (Some (1, 2)) ;; e <- @ecc_encode bn256_fr bn_fq_info a ;; mret (a, e)) ctx_new = Ok ((a, e), c)
    /\ @satisfies bn256_fr c A1 /\ @satisfies bn256_fr c A2
    /\ @point_is bn256_fr bn256_fq_p (at_ A1) a (Aff 1 2) /\ @point_is bn256_fr bn256_fq_p (at_ A2) a (Aff 1 2)
    /\ map (at_ A1) e <> map (at_ A2) e.
Proof.
  exact encode_two_ways.
Qed.

Lemma C26_identity_flag_refuted_main :
  exists a c A, @assign_point bn256_fr bn_fq_info 3 (Some (1, 2)) ctx_new = Ok (a, c)
    /\ @satisfies bn256_fr c A /\ A⟦p_z a⟧ = 2.
Proof.
  exact flag_two.
Qed.

