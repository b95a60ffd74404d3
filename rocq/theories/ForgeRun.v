(** Recorded points that need not be on the curve, and a multi-scalar multiplication of one
    point in which the last digit is 2. *)
From Verif Require Import Prelude FieldZ Circuit Context Spec Logic ModArith Prims BaseChip BaseProofs
  RangeInfo RangeChip IntegerChip SpecInt InfoProofs IntArith RangeProofs IntInv IntSound IntComplete IntBridge
  IntRes EccChip SpecEcc Curve EccArith EccProofs EccHonest EccEncode ScalarChip ScalarProofs Msm ParWindows MsmProofs MsmSound
  SpecSelect SelectProofs HonestLogic HonestMsm HonestScalar SpecShape SpecCost Cost SpecSchedule TotalLogic TotalMsm TotalTop Forge ForgeDec.

Section Q.
Context {NM : NMod}.
Variable w : Z.
Variable I : rinfo.
Hypothesis IO : info_ok w I.
Hypothesis n_prime : prime nmod.
Hypothesis w_prime : prime w.
Hypothesis HD : ri_d_bits I mod 108 <> 0.
Variable cv_b : Z.
Hypothesis b_range : 0 < cv_b < w.
Local Notation L := (ri_limbs I).
Local Notation hv := (hv w I cv_b).
Local Notation OC := (on_curve w cv_b).

(** The handle of an affine point, on the curve or not. *)
Definition hq (c : ctx) (a : anz) (p : pt) : Prop := exists x y, hn w I c a x y /\ p = dec w x y false.
Lemma hq_of c a p : hv c a p -> hq c a p.
Proof. intros (x & y & H & E & _). exists x, y. auto. Qed.
Lemma hq_rext c d a p : rext c d -> hq c a p -> hq d a p.
Proof. intros E (x & y & [H1 H2] & C). exists x, y. split; [split; eapply cr_rext; eauto|exact C]. Qed.
Lemma hq_mono c d a p : extends c d -> hq c a p -> hq d a p.
Proof. intros E. apply hq_rext, rext_of, E. Qed.

Lemma chord_unique x1 y1 x2 y2 r r' : 0 <= x1 < w -> 0 <= x2 < w -> x1 <> x2 ->
  pt_add w (Aff x1 y1) (Aff x2 y2) r -> pt_add w (Aff x1 y1) (Aff x2 y2) r' -> r = r'.
Proof.
  intros R1 R2 N H H'. inversion H; subst; try congruence. inversion H'; subst; try congruence.
  apply third_ext. apply (eqm_mul_cancel_l w (x1 - x2)); auto.
  - apply ne_sub; auto.
  - unfold eqm in *. congruence.
Qed.
Lemma tangent_unique x y r r' : (2 * y) mod w <> 0 -> pt_add w (Aff x y) (Aff x y) r -> pt_add w (Aff x y) (Aff x y) r' -> r = r'.
Proof.
  intros N H H'. inversion H; subst; try congruence.
  { exfalso. apply N. match goal with K : (y + y) mod w = 0 |- _ => rewrite <- K; f_equal; ring end. }
  inversion H'; subst; try congruence.
  { exfalso. apply N. match goal with K : (y + y) mod w = 0 |- _ => rewrite <- K; f_equal; ring end. }
  apply third_ext. apply (eqm_mul_cancel_l w (2 * y)); auto. unfold eqm in *. congruence.
Qed.
Lemma add_Q c a b p q r : wf c -> hq c a p -> hq c b q -> chord w p q r -> UT c (ecc_add_unsafe I a b) (fun s c' => hq c' s r).
Proof.
  intros W (x1 & y1 & H1 & ->) (x2 & y2 & H2 & ->) [NE Ad]. cbn [dec] in NE. pose proof (w_pos w w_prime).
  eapply CT_weaken; [eapply (ecc_add_unsafe_C w I IO); eauto|]. intros s c' _ _ (p & x3 & y3 & -> & H3 & Ad'). exists p. split; [reflexivity|].
  exists x3, y3. split; [exact H3|]. cbn [dec] in *. eapply chord_unique; [| |exact NE|exact Ad|exact Ad']; apply Z.mod_pos_bound; lia.
Qed.
Lemma double_Q c a p r : wf c -> hq c a p -> tangent w p r -> UT c (ecc_double_unsafe I a) (fun s c' => hq c' s r).
Proof.
  intros W (x1 & y1 & H1 & ->) [NE Ad]. cbn [dec] in NE. pose proof (w_pos w w_prime).
  assert (NE' : (2 * y1) mod w <> 0) by (rewrite Z.mul_mod_idemp_r in NE by lia; exact NE).
  eapply CT_weaken; [eapply (ecc_double_unsafe_C w I IO); eauto|]. intros s c' _ _ (p & x3 & y3 & -> & H3 & Ad'). exists p. split; [reflexivity|].
  exists x3, y3. split; [exact H3|]. cbn [dec] in *. eapply tangent_unique; [exact NE|exact Ad|exact Ad'].
Qed.
Lemma reduce_Q c a p : wf c -> hq c a p -> CT c (ecc_reduce_non_zero I a) (fun r c' => hq c' r p /\ red r).
Proof.
  intros W (x & y & H & ->). eapply CT_weaken; [eapply (ecc_reduce_nz_C w I IO); eauto|]. intros r c' _ _ (H' & T). split; [|exact T].
  exists x, y. auto.
Qed.
Lemma neg_Q c a p : wf c -> hq c a p -> CT c (ecc_neg_non_zero I a) (fun r c' => hq c' r (pt_neg w p)).
Proof.
  intros W (x & y & H & ->). eapply CT_weaken; [eapply (ecc_neg_nz_C w I IO); eauto|]. intros r c' _ _ H'.
  exists x, (- y). split; [exact H'|]. rewrite neg_dec by auto. reflexivity.
Qed.

(** [bisec_int] with the digit 2. *)
Definition twice_ok (x1 x0 : Z) : Prop :=
  (forall i, (i < L)%nat -> 0 <= 2 * limb_at x1 i - limb_at x0 i < 2 ^ (if (S i =? L)%nat then ri_w_ceil_bits I mod 108 else 108)) /\ 0 <= 2 * x1 - x0 < w.
Lemma limbs_red c x r : cr w I c x r -> i_times x = 1 -> 0 <= r < w -> val a_val x = r /\ forall i, (i < L)%nat -> lv a_val x i = limb_at r i.
Proof.
  intros H T R. pose proof (int_times1 w I c x r H T) as V. destruct H as [(HO & _ & _) E]. pose proof (hk_w _ _ _ HO) as Wf.
  assert (EV : val a_val x = r) by (apply (eqm_small w); auto). split; [exact EV|].
  intros i Hi. apply (lsum_eq_digits (lv a_val x) (limb_at r) L); auto.
  - intros j Hj. pose proof (lv_range I a_val x j Wf) as K. rewrite T in K. lia.
  - intros j Hj. apply limb_at_range.
  - rewrite <- (val_lsum I) by (eapply wf_len; eauto). rewrite EV. symmetry.
    transitivity (lval (bn_to_limb_le L r)); [|apply lval_limbs; destruct (w_lt_LIMB w I IO w_prime) as [_ WLT]; split; [lia|eapply Z.lt_trans; [|exact WLT]; lia]].
    rewrite lval_lsum, bn_to_limb_le_length. apply lsum_ext. intros j Hj. unfold bn_to_limb_le. rewrite nth_map_seq by auto. reflexivity.
Qed.
Lemma bisec_val_2 c k x y : 2 < nmod -> valid c x -> valid c y -> a_val k = 2 -> 0 <= 2 * a_val x - a_val y < nmod ->
  fadd (fmul (a_val k) (a_val x)) (fmul (fsub 1 (a_val k)) (a_val y)) = 2 * a_val x - a_val y.
Proof.
  intros N Vx Vy -> R. apply (eqm_small nmod); [|unfold fadd; apply Z.mod_pos_bound; lia|exact R]. unf. estrip. apply eqm_eq. ring.
Qed.
Lemma bisec_int_2 c k a b x1 x0 : wf c -> valid c k -> a_val k = 2 -> cr w I c a x1 -> cr w I c b x0 -> i_times a = 1 -> i_times b = 1 ->
  0 <= x1 < w -> 0 <= x0 < w -> twice_ok x1 x0 -> CT c (bisec_int I k a b) (fun r c' => cr w I c' r (2 * x1 - x0)).
Proof.
  intros W Vk Hk Ca Cb Ta Tb R1 R0 (TL & TV). destruct (limbs_red c a x1 Ca Ta R1) as (Va & La). destruct (limbs_red c b x0 Cb Tb R0) as (Vb & Lb).
  pose proof Ca as [(Ha & _ & _) _]. pose proof Cb as [(Hb & _ & _) _]. pose proof (hk_w _ _ _ Ha) as Wa. pose proof (hk_w _ _ _ Hb) as Wb.
  pose proof (IntInv.n_big w I IO) as NB. pose proof (io_L3 _ _ IO) as L3. assert (N2 : 2 < nmod) by (change (2 ^ 108) with 324518553658426726783156020576256 in NB; lia).
  assert (LB : 2 ^ (ri_w_ceil_bits I mod 108) <= 2 ^ 108) by (apply Z.pow_le_mono_r; [lia|pose proof (Z.mod_pos_bound (ri_w_ceil_bits I) 108 ltac:(lia)); lia]).
  unfold bisec_int.
  eapply CT_bind; [apply (mapM_limbs I c _ (fun i => 2 * limb_at x1 i - limb_at x0 i)); auto|].
  { intros i c' Hi W' E'. destruct (hok_nth I c a i Ha Hi) as (x & Nx & Vx & Ex). destruct (hok_nth I c b i Hb Hi) as (y & Ny & Vy & Ey).
    eapply CT_nth_k; [exact Nx|]. eapply CT_nth_k; [exact Ny|].
    eapply CT_weaken; [apply bisec_CT; auto; eapply valid_mono; eauto|]. intros r c2 _ _ [V E]. split; [auto|].
    rewrite E, (bisec_val_2 c); auto; rewrite Ex, Ey, La, Lb by auto; [reflexivity|]. specialize (TL i Hi). destruct (S i =? L)%nat; lia. }
  intros ls c1 W1 E1 HL. cbv beta in HL.
  assert (Na : valid c (i_native a)) by (apply (hk_n _ _ _ Ha)). assert (Nb : valid c (i_native b)) by (apply (hk_n _ _ _ Hb)).
  eapply CT_bind; [apply bisec_CT; auto; eapply valid_mono; eauto|]. intros nt c2 W2 E2 [Vn En]. apply CT_ret; auto.
  assert (LN := fun i => limbs_are_nth I _ _ _ i HL). assert (LV := limbs_are_lval I _ _ _ HL).
  assert (DG : forall r, 0 <= r < w -> lsum (limb_at r) L = r).
  { intros r Rr. transitivity (lval (bn_to_limb_le L r)); [|apply lval_limbs; destruct (w_lt_LIMB w I IO w_prime) as [_ WLT]; split; [lia|eapply Z.lt_trans; [|exact WLT]; lia]].
    rewrite lval_lsum, bn_to_limb_le_length. apply lsum_ext. intros j Hj. unfold bn_to_limb_le. rewrite nth_map_seq by auto. reflexivity. }
  rewrite lsum_sub, lsum_scale, !DG in LV by auto.
  pose proof (w_le w I IO) as WL.
  split; [|unfold IntInv.val; cbn [i_limbs]; rewrite LV; reflexivity].
  rewrite Ta, Tb. split; [|split; cbn [i_times]; [lia|unfold IntInv.val; cbn [i_limbs]; rewrite LV; lia]].
  split; cbn [i_limbs i_native]; [eapply limbs_are_valid; eapply limbs_are_mono; eauto|exact Vn|].
  constructor; unfold IntInv.lv, IntInv.val; cbn [i_limbs i_times i_native].
  - apply HL.
  - lia.
  - intros i Hi. rewrite LN by lia. specialize (TL i ltac:(lia)). destruct (Nat.eqb_spec (S i) L); [lia|]. change LIMB with (2 ^ 108). lia.
  - rewrite LN by lia. specialize (TL (L - 1)%nat ltac:(lia)). destruct (Nat.eqb_spec (S (L - 1)) L); [lia|lia].
  - rewrite LV. change (Z.max 1 1) with 1. lia.
  - rewrite LV, En, Hk. pose proof (wf_nat _ _ _ Wa) as A1. pose proof (wf_nat _ _ _ Wb) as A2. rewrite Va in A1. rewrite Vb in A2. rewrite A1, A2.
    match goal with |- ?l = ?r mod nmod => rewrite <- (Z.mod_small l nmod) by (unfold fadd; apply Z.mod_pos_bound; lia); change (l ≡ r ⟨nmod⟩) end.
    unf. estrip. apply eqm_eq. ring.
Qed.

Lemma cr_res c x r r' : r ≡ r' ⟨w⟩ -> cr w I c x r -> cr w I c x r'.
Proof. intros E [H1 H2]. split; [exact H1|]. rewrite H2. exact E. Qed.
Lemma hq_coords c a x y : 0 <= x < w -> 0 <= y < w -> hq c a (Aff x y) -> hn w I c a x y.
Proof.
  intros Rx Ry (x' & y' & [H1 H2] & E). cbn [dec] in E. injection E as -> ->. pose proof (w_pos w w_prime).
  split; (eapply cr_res; [|eassumption]); symmetry; apply mod_eqm.
Qed.
Lemma bisec_nz_2 c k a b x1 y1 x0 y0 : wf c -> valid c k -> a_val k = 2 -> hn w I c a x1 y1 -> hn w I c b x0 y0 -> red a -> red b ->
  0 <= x1 < w -> 0 <= y1 < w -> 0 <= x0 < w -> 0 <= y0 < w -> twice_ok x1 x0 -> twice_ok y1 y0 ->
  CT c (ecc_bisec_non_zero_point I k a b) (fun r c' => hn w I c' r (2 * x1 - x0) (2 * y1 - y0)).
Proof.
  intros W V E [A1 A2] [B1 B2] [Ta1 Ta2] [Tb1 Tb2] R1 R2 R3 R4 T1 T2. unfold ecc_bisec_non_zero_point.
  eapply CT_bind; [apply (bisec_int_2 c k _ _ x1 x0); auto|]. intros x c1 W1 E1 Hx. cbv beta in Hx.
  eapply CT_bind; [apply (bisec_int_2 c1 k _ _ y1 y0); auto; [eapply valid_mono; eauto|eapply cr_mono; eauto|eapply cr_mono; eauto]|].
  intros y c2 W2 E2 Hy. cbv beta in Hy. apply CT_ret; [auto|]. split; [eapply cr_mono; eauto|exact Hy].
Qed.

(** The complete addition, where it is a chord. *)
Lemma ecc_add_chord c a b x1 y1 l k x2 y2 : wf c -> hpc w I c a x1 y1 false l k -> hp w I c b x2 y2 false -> x1 mod w <> x2 mod w ->
  CT c (ecc_add I a b) (fun r c' => exists x y, hp w I c' r x y false /\ pt_add w (dec w x1 y1 false) (dec w x2 y2 false) (dec w x y false)).
Proof.
  intros W0 (Ha & A4 & A5) Hb NE. pose proof Ha as (A1 & A2 & A3). pose proof Hb as (B1 & B2 & B3).
  cbn [to_point p_x p_y p_z] in A1, A2, A3.
  unfold ecc_add. cg int_sub_C. intros dx ? ? ? Hdx. upz. cg int_sub_C. intros dy ? ? ? Hdy. upz. cg int_div_C. intros t ? ? ? (Hxe & q & Hq & Q). upz.
  cg is_int_zero_C. intros ye ? ? ? Hye. upz. cg and_C. intros eq ? ? ? Heq. upz.
  eapply CT_bind; [eapply (bisec_curvature_C w I IO n_prime _ eq _ (pc_c a) (mkCurv (snd t) (fst t))); eauto|cbv beta]. intros lam ? ? ? (Hl & Hk). upz. cbv zeta.
  eapply CT_bind; [eapply (lambda_to_point_C w I IO); eauto|cbv beta]. intros p ? ? ? Hp. upz.
  eapply CT_bind; [eapply (bisec_point_C w I IO); eauto|cbv beta]. intros p' ? ? ? (Hp' & _). upz.
  eapply CT_weaken; [eapply (bisec_point_C w I IO); eauto|]. intros r ? ? ? (Hr & _). upz.
  assert (EX : ((x1 - x2) mod w =? 0) = false).
  { apply Z.eqb_neq. intros K. apply NE. apply eqm_0_iff in K. apply eqm_sub_0 in K. exact K. }
  rewrite EX in *. cbn [andb] in *.
  do 2 eexists. split; [exact Hr|].
  rewrite <- third_dec. unfold dec. apply add_chord; [exact NE|].
  match goal with |- ?a mod w = ?b mod w => change (a ≡ b ⟨w⟩) end. estrip. apply Q.
  intros K. apply NE. apply eqm_sub_0 in K. exact K.
Qed.
End Q.
