(** Honest runs of the point gadgets of ecc_chip.rs. *)
From Verif Require Import Prelude FieldZ Circuit Context Spec Logic ModArith Prims BaseChip BaseProofs
  RangeInfo RangeChip IntegerChip SpecInt InfoProofs IntArith RangeProofs IntInv IntSound IntComplete IntBridge
  IntRes EccChip SpecEcc Curve EccArith EccProofs.

Section Hon.
Context {NM : NMod}.
Variable w : Z.
Variable I : rinfo.
Hypothesis IO : info_ok w I.
Hypothesis n_prime : prime nmod.
Hypothesis w_prime : prime w.
Hypothesis HD : ri_d_bits I mod 108 <> 0.
Variable cv_b : Z.
Hypothesis b_range : 0 <= cv_b < w.
Local Notation cr := (cr w I).

Definition hp (c : ctx) (a : apoint) (x y : Z) (z : bool) : Prop := cr c (p_x a) x /\ cr c (p_y a) y /\ cb c (p_z a) z.
Definition hn (c : ctx) (a : anz) (x y : Z) : Prop := cr c (nz_x a) x /\ cr c (nz_y a) y.
Definition hpc (c : ctx) (a : apointc) (x y : Z) (z : bool) (l : Z) (k : bool) : Prop :=
  hp c (to_point a) x y z /\ cr c (k_v (pc_c a)) l /\ cb c (k_z (pc_c a)) k.
Lemma hp_mono c c' a x y z : extends c c' -> hp c a x y z -> hp c' a x y z.
Proof. intros E (H1 & H2 & H3). split; [|split]; eauto using cr_mono, cb_mono. Qed.
Lemma hn_mono c c' a x y : extends c c' -> hn c a x y -> hn c' a x y.
Proof. intros E (H1 & H2). split; eauto using cr_mono. Qed.
Lemma hpc_mono c c' a x y z l k : extends c c' -> hpc c a x y z l k -> hpc c' a x y z l k.
Proof. intros E (H1 & H2 & H3). split; [|split]; eauto using cr_mono, cb_mono, hp_mono. Qed.
Ltac upx := repeat match goal with E : extends ?c ?c' |- _ => up E;
  repeat match goal with
  | H : hp c _ _ _ _ |- _ => apply (hp_mono _ _ _ _ _ _ E) in H
  | H : hpc c _ _ _ _ _ _ |- _ => apply (hpc_mono _ _ _ _ _ _ _ _ E) in H
  | H : hn c _ _ _ |- _ => apply (hn_mono _ _ _ _ _ E) in H
  end; clear E end.

Lemma lambda_xy_C c0 l ax ay bx rl x1 y1 x2 : wf c0 -> cr c0 l rl -> cr c0 ax x1 -> cr c0 ay y1 -> cr c0 bx x2 ->
  CT c0 (lambda_xy I l ax ay bx) (fun r c => cr c (fst r) (lam_x rl x1 x2) /\ cr c (snd r) (lam_y rl x1 y1 x2)).
Proof.
  intros W0 Hl Hx Hy Hb. unfold lambda_xy. cg int_square_C. intros l2 ? ? ? H2. upx. cg int_sub_C. intros t ? ? ? Ht. upx.
  cg int_sub_C. intros cx ? ? ? Hcx. upx. cg int_sub_C. intros t1 ? ? ? Ht1. upx. cg int_mul_C. intros t2 ? ? ? Ht2. upx.
  cg int_sub_C. intros cy ? ? ? Hcy. upx. apply CT_ret; [auto|]. cbn [fst snd]. split; [exact Hcx|]. exact Hcy.
Qed.

Lemma curve_sides_C c0 ax ay x y : wf c0 -> cr c0 ax x -> cr c0 ay y ->
  CT c0 (curve_sides I cv_b ax ay) (fun r c => cr c (fst r) (y * y) /\ cr c (snd r) (x * x * x + cv_b)).
Proof.
  intros W0 Hx Hy. unfold curve_sides. cg assign_int_constant_C. intros vb ? ? ? (Hvb & Tvb). upx. cg int_square_C. intros y2 ? ? ? Hy2. upx.
  cg int_square_C. intros x2 ? ? ? Hx2. upx. cg int_mul_C. intros x3 ? ? ? Hx3. upx. cg int_add_C. intros r ? ? ? Hr. upx. apply CT_ret; [auto|]. auto.
Qed.

Lemma assign_identity_C c0 : wf c0 -> CT c0 (assign_identity I) (fun r c => hpc c r 0 0 true 0 true /\
  i_times (pc_x r) = 1 /\ i_times (pc_y r) = 1).
Proof.
  intros W0. pose proof (w_pos w w_prime). unfold assign_identity.
  eapply CT_bind; [apply (assign_int_constant_C w I IO n_prime w_prime _ 0); [auto|lia]|cbv beta]. intros z ? ? ? (Hz & Tz). upx.
  change 1 with (Z.b2z true) at 1. cg assign_constant_C. intros o ? ? ? Ho. upx. apply CT_ret; [auto|]. cbn [pc_x pc_y]. split; [|auto].
  unfold hpc, hp; auto 10.
Qed.
Lemma bisec_point_C c0 d k a b x1 y1 z1 x2 y2 z2 : wf c0 -> cb c0 d k -> hp c0 a x1 y1 z1 -> hp c0 b x2 y2 z2 ->
  CT c0 (bisec_point I d a b) (fun r c => hp c r (if k then x1 else x2) (if k then y1 else y2) (if k then z1 else z2) /\
     i_times (p_x r) = Z.max (i_times (p_x a)) (i_times (p_x b)) /\ i_times (p_y r) = Z.max (i_times (p_y a)) (i_times (p_y b))).
Proof.
  intros W0 Hc (A1 & A2 & A3) (B1 & B2 & B3). unfold bisec_point. cg bisec_int_C. intros x ? ? ? (Hx & Tx). upx. cg bisec_int_C. intros y ? ? ? (Hy & Ty). upx.
  cg bisec_cond_C. intros z ? ? ? Hz. upx. apply CT_ret; [auto|]. cbn [p_x p_y p_z]. split; [|auto]. split; [|split]; auto.
Qed.
Lemma bisec_curvature_C c0 d k a b l1 k1 l2 k2 : wf c0 -> cb c0 d k -> cr c0 (k_v a) l1 -> cb c0 (k_z a) k1 -> cr c0 (k_v b) l2 -> cb c0 (k_z b) k2 ->
  CT c0 (bisec_curvature I d a b) (fun r c => cr c (k_v r) (if k then l1 else l2) /\ cb c (k_z r) (if k then k1 else k2)).
Proof.
  intros W0 Hc A1 A2 B1 B2. unfold bisec_curvature. cg bisec_int_C. intros x ? ? ? (Hx & Tx). upx. cg bisec_cond_C. intros z ? ? ? Hz. upx. apply CT_ret; [auto|]. auto.
Qed.
Lemma curvature_of_C c0 ax ay x y : wf c0 -> cr c0 ax x -> cr c0 ay y ->
  CT c0 (curvature_of I ax ay) (fun r c => exists l k, cb c (fst r) k /\ cr c (snd r) l /\ tangent_ok w x y l k).
Proof.
  intros W0 Hx Hy. unfold curvature_of. cg int_square_C. intros x2 ? ? ? H2. upx.
  eapply CT_bind; [apply (int_mul_small_C w I IO n_prime w_prime _ x2 3 (x * x)); [auto|lia|auto]|cbv beta]. intros nu ? ? ? Hn. upx.
  eapply CT_bind; [apply (int_mul_small_C w I IO n_prime w_prime _ ay 2 y); [auto|lia|auto]|cbv beta]. intros de ? ? ? Hd. upx.
  eapply CT_weaken; [eapply (int_div_C w I IO); eauto|]. intros r ? ? ? (Hb & q & Hq & E). upx.
  exists q, ((y * 2) mod w =? 0). split; [auto|]. split; [auto|]. split.
  - f_equal. f_equal. ring.
  - intros K. apply Z.eqb_neq in K. specialize (E K). rewrite (Z.mul_comm 2 y). rewrite E. apply eqm_eq. ring.
Qed.
Lemma lambda_to_point_C c0 lam a b l k x1 y1 z1 x2 y2 z2 : wf c0 -> cr c0 (k_v lam) l -> cb c0 (k_z lam) k -> hp c0 a x1 y1 z1 -> hp c0 b x2 y2 z2 ->
  CT c0 (lambda_to_point I lam a b) (fun r c => hp c r (lam_x l x1 x2) (lam_y l x1 y1 x2) k).
Proof.
  intros W0 Hl Hk (A1 & A2 & A3) (B1 & B2 & B3). unfold lambda_to_point. cg lambda_xy_C. intros r ? ? ? (H1 & H2). upx. apply CT_ret; [auto|].
  split; [|split]; auto.
Qed.
Lemma ecc_add_C c0 a b x1 y1 z1 l1 k1 x2 y2 z2 : wf c0 -> hpc c0 a x1 y1 z1 l1 k1 -> hp c0 b x2 y2 z2 ->
  (z1 = false -> tangent_ok w x1 y1 l1 k1) ->
  on_curve w cv_b (dec w x1 y1 z1) -> on_curve w cv_b (dec w x2 y2 z2) ->
  CT c0 (ecc_add I a b) (fun r c => exists x y z, hp c r x y z /\ pt_add w (dec w x1 y1 z1) (dec w x2 y2 z2) (dec w x y z)).
Proof.
  intros W0 (Ha & A4 & A5) Hb T1 C1 C2. pose proof Ha as (A1 & A2 & A3). pose proof Hb as (B1 & B2 & B3).
  cbn [to_point p_x p_y p_z] in A1, A2, A3.
  unfold ecc_add. cg int_sub_C. intros dx ? ? ? Hdx. upx. cg int_sub_C. intros dy ? ? ? Hdy. upx. cg int_div_C. intros t ? ? ? (Hxe & q & Hq & Q). upx.
  cg is_int_zero_C. intros ye ? ? ? Hye. upx. cg and_C. intros eq ? ? ? Heq. upx.
  eapply CT_bind; [eapply (bisec_curvature_C _ eq _ (pc_c a) (mkCurv (snd t) (fst t))); eauto|cbv beta]. intros lam ? ? ? (Hl & Hk). upx. cbv zeta. cg lambda_to_point_C. intros p ? ? ? Hp. upx. cg bisec_point_C. intros p' ? ? ? (Hp' & _). upx.
  eapply CT_weaken; [eapply bisec_point_C; eauto|]. intros r ? ? ? (Hr & _). upx.
  do 3 eexists. split; [exact Hr|]. eapply add_dec; eauto.
Qed.
Lemma ecc_double_C c0 ord a x1 y1 z1 l1 k1 : wf c0 -> hpc c0 a x1 y1 z1 l1 k1 -> (z1 = false -> tangent_ok w x1 y1 l1 k1) ->
  negb (Z.odd ((- 1) mod ord)) = true -> CT c0 (ecc_double I ord a) (fun r c => exists x y z, hp c r x y z /\ pt_add w (dec w x1 y1 z1) (dec w x1 y1 z1) (dec w x y z)).
Proof.
  intros W0 (Ha & A4 & A5) T1 OD. pose proof Ha as (A1 & A2 & A3). unfold ecc_double. apply CT_assert_k; [exact OD|].
  cbv zeta. cg lambda_to_point_C. intros p ? ? ? (H1 & H2 & H3). upx.
  eapply CT_bind; [eapply bisec_cond_C; [auto..|exact A3|exact A3|exact H3]|cbv beta]. intros z ? ? ? Hz. upx. cbv beta in Hz. apply CT_ret; [auto|].
  do 3 eexists. split; [split; [exact H1|split; [exact H2|exact Hz]]|]. apply double_dec. exact T1.
Qed.
Lemma ecc_neg_C c0 a x y z : wf c0 -> hp c0 a x y z -> CT c0 (ecc_neg I a) (fun r c => hp c r x (- y) z).
Proof. intros W0 (A1 & A2 & A3). unfold ecc_neg. cg int_neg_C. intros r ? ? ? Hr. upx. apply CT_ret; [auto|]. split; [|split]; auto. Qed.
Lemma ecc_reduce_C c0 a x y z : wf c0 -> hp c0 a x y z ->
  CT c0 (ecc_reduce I a) (fun r c => hp c r (if z then 0 else x) (if z then 0 else y) z /\ i_times (p_x r) = 1 /\ i_times (p_y r) = 1).
Proof.
  intros W0 (A1 & A2 & A3). unfold ecc_reduce. cg reduce_C. intros x' ? ? ? (Hx & Tx). upx. cg reduce_C. intros y' ? ? ? (Hy & Ty). upx.
  cg assign_identity_C. intros id ? ? ? ((Hid & _) & Tix & Tiy). upx.
  eapply CT_weaken; [apply (bisec_point_C _ (p_z a) z (to_point id) (mkPt x' y' (p_z a)) 0 0 true x y z); auto; split; auto|]. intros r ? ? ? (Hr & T1 & T2). upx. cbn [p_x p_y to_point] in *. split; [|lia]. destruct Hr as (R1 & R2 & R3). split; [auto|]. split; [auto|].
  destruct z; exact R3.
Qed.
Lemma ecc_reduce_with_curvature_C c0 a x y z : wf c0 -> hp c0 a x y z ->
  CT c0 (ecc_reduce_with_curvature I a) (fun r c => exists x' y' l k, hpc c r x' y' z l k /\ (z = false -> tangent_ok w x' y' l k)
      /\ dec w x' y' z = dec w x y z /\ i_times (pc_x r) = 1 /\ i_times (pc_y r) = 1 /\ i_times (k_v (pc_c r)) = 1).
Proof.
  intros W0 H. unfold ecc_reduce_with_curvature. cg ecc_reduce_C. intros a' ? ? ? ((A1 & A2 & A3) & T1 & T2). upx.
  cg curvature_of_C. intros r ? ? ? (l & k & Hk & Hl & TO). upx. cg reduce_C. intros v ? ? ? (Hv & Tv). upx. apply CT_ret; [auto|].
  do 4 eexists. split; [|split; [|split; [apply dec_reduced|cbn; auto]]].
  - split; [split; [exact A1|split; [exact A2|exact A3]]|split; [exact Hv|exact Hk]].
  - intros _. exact TO.
Qed.
Lemma to_pointc_C c0 a x y z : wf c0 -> hp c0 a x y z ->
  CT c0 (to_point_with_curvature I a) (fun r c => exists l k, hpc c r x y z l k /\ tangent_ok w x y l k).
Proof.
  intros W0 (A1 & A2 & A3). unfold to_point_with_curvature. cg curvature_of_C. intros r ? ? ? (l & k & Hk & Hl & TO). upx. apply CT_ret; [auto|].
  exists l, k. split; [|exact TO]. split; [split; [exact A1|split; [exact A2|exact A3]]|split; [exact Hl|exact Hk]].
Qed.

(** Points known not to be the identity. *)
Lemma lambda_nz_C c0 lam a b l x1 y1 x2 y2 : wf c0 -> cr c0 lam l -> hn c0 a x1 y1 -> hn c0 b x2 y2 ->
  CT c0 (lambda_to_point_non_zero I lam a b) (fun r c => hn c r (lam_x l x1 x2) (lam_y l x1 y1 x2)).
Proof.
  intros W0 Hl (A1 & A2) (B1 & B2). unfold lambda_to_point_non_zero. cg lambda_xy_C. intros r ? ? ? (H1 & H2). upx. apply CT_ret; [auto|]. split; auto.
Qed.
Lemma ecc_neg_nz_C c0 a x y : wf c0 -> hn c0 a x y -> CT c0 (ecc_neg_non_zero I a) (fun r c => hn c r x (- y)).
Proof. intros W0 (A1 & A2). unfold ecc_neg_non_zero. cg int_neg_C. intros r ? ? ? Hr. upx. apply CT_ret; [auto|]. split; auto. Qed.
Lemma ecc_reduce_nz_C c0 a x y : wf c0 -> hn c0 a x y ->
  CT c0 (ecc_reduce_non_zero I a) (fun r c => hn c r x y /\ i_times (nz_x r) = 1 /\ i_times (nz_y r) = 1).
Proof.
  intros W0 (A1 & A2). unfold ecc_reduce_non_zero. cg reduce_C. intros x' ? ? ? (Hx & ?). upx. cg reduce_C. intros y' ? ? ? (Hy & ?). upx. apply CT_ret; [auto|].
  split; [split; auto|cbn; auto].
Qed.
Lemma ecc_bisec_nz_C c0 d k a b x1 y1 x2 y2 : wf c0 -> cb c0 d k -> hn c0 a x1 y1 -> hn c0 b x2 y2 ->
  CT c0 (ecc_bisec_non_zero_point I d a b) (fun r c => hn c r (if k then x1 else x2) (if k then y1 else y2)).
Proof.
  intros W0 Hc (A1 & A2) (B1 & B2). unfold ecc_bisec_non_zero_point. cg bisec_int_C. intros x ? ? ? (Hx & Tx). upx. cg bisec_int_C. intros y ? ? ? (Hy & Ty). upx.
  apply CT_ret; [auto|]. split; auto.
Qed.
Lemma downgrade_C c0 a x y : wf c0 -> hn c0 a x y -> CT c0 (ecc_non_zero_point_downgrade a) (fun r c => hp c r x y false).
Proof.
  intros W0 (A1 & A2). unfold ecc_non_zero_point_downgrade. change 0 with (Z.b2z false). cg assign_constant_C. intros z ? ? ? Hz. upx. apply CT_ret; [auto|]. split; [|split]; auto.
Qed.
Lemma bisec_to_nz_C c0 a b x1 y1 z x2 y2 : wf c0 -> hp c0 a x1 y1 z -> hn c0 b x2 y2 ->
  CT c0 (ecc_bisec_to_non_zero_point I a b) (fun r c => hn c r (if z then x2 else x1) (if z then y2 else y1)).
Proof.
  intros W0 (A1 & A2 & A3) (B1 & B2). unfold ecc_bisec_to_non_zero_point. cg bisec_int_C. intros x ? ? ? (Hx & Tx). upx. cg bisec_int_C. intros y ? ? ? (Hy & Ty). upx. apply CT_ret; [auto|]. split; auto.
Qed.

Lemma coords_range p : on_curve w cv_b (pt_of p) -> 0 <= fst (coords p) < w /\ 0 <= snd (coords p) < w.
Proof. pose proof (w_pos w w_prime). destruct p as [[x y]|]; cbn; [intros (? & ? & _); auto|lia]. Qed.
Lemma dec_of p : on_curve w cv_b (pt_of p) -> dec w (fst (coords p)) (snd (coords p)) (is_identity p) = pt_of p.
Proof.
  intros C. pose proof (coords_range p C) as [H1 H2]. destruct p as [[x y]|]; [|reflexivity].
  cbn in *. unfold dec. rewrite !Z.mod_small; auto.
Qed.
Lemma assign_point_C c0 p : wf c0 -> on_curve w cv_b (pt_of p) ->
  CT c0 (assign_point I cv_b p) (fun r c => hp c r (fst (coords p)) (snd (coords p)) (is_identity p)).
Proof.
  intros W0 C. destruct (coords_range p C). unfold assign_point. cg assign_w_C. intros x ? ? ? Hx. upx.
  cg assign_w_C. intros y ? ? ? Hy. upx. change (b2n (is_identity p)) with (Z.b2z (is_identity p)).
  cg assign_bit_C. intros z ? ? ? Hz. upx. cg curve_sides_C. intros s ? ? ? (Hs1 & Hs2). upx.
  cg is_int_equal_C. intros eq ? ? ? He. upx. cg or_C. intros o ? ? ? Ho. upx.
  assert (E : ((snd (coords p) * snd (coords p) - (fst (coords p) * fst (coords p) * fst (coords p) + cv_b)) mod w =? 0)
     || is_identity p = true).
  { destruct p as [[x' y']|]; [|apply Bool.orb_true_r]. cbn in *. destruct C as (_ & _ & C). rewrite Bool.orb_false_r.
    apply Z.eqb_eq. apply (proj1 (eqm_0_iff _ _)). apply (proj1 (eqm_sub_0 _ _ _)). exact C. }
  rewrite E in Ho. cg assert_true_C. intros u ? ? ? _. upx. apply CT_ret; [auto|]. split; [|split]; auto.
Qed.
Lemma assign_nz_C c0 x y : wf c0 -> on_curve w cv_b (Aff x y) ->
  CT c0 (assign_non_zero_point I cv_b (Some (x, y))) (fun r c => hn c r x y).
Proof.
  intros W0 (Rx & Ry & C). unfold assign_non_zero_point. eapply CT_opt_k; [reflexivity|]. cbn [fst snd].
  cg assign_w_C. intros ax ? ? ? Hx. upx.
  cg assign_w_C. intros ay ? ? ? Hy. upx. cg curve_sides_C. intros s ? ? ? (Hs1 & Hs2). upx.
  cg assert_int_equal_C. intros u ? ? ? _. upx. apply CT_ret; [auto|]. split; auto.
Qed.
Lemma assign_constant_point_C c0 p : wf c0 -> on_curve w cv_b (pt_of p) ->
  CT c0 (assign_constant_point I p) (fun r c => hp c r (fst (coords p)) (snd (coords p)) (is_identity p)).
Proof.
  intros W0 C. destruct (coords_range p C). unfold assign_constant_point. cg assign_int_constant_C. intros x ? ? ? (Hx & Tx). upx.
  cg assign_int_constant_C. intros y ? ? ? (Hy & Ty). upx. change (b2n (is_identity p)) with (Z.b2z (is_identity p)).
  cg assign_constant_C. intros z ? ? ? Hz. upx. apply CT_ret; [auto|]. split; [|split]; auto.
Qed.
Lemma ecc_assert_equal_C c0 a b x1 y1 z1 x2 y2 z2 : wf c0 -> hp c0 a x1 y1 z1 -> hp c0 b x2 y2 z2 ->
  dec w x1 y1 z1 = dec w x2 y2 z2 -> CT c0 (ecc_assert_equal I a b) (fun _ _ => True).
Proof.
  intros W0 (A1 & A2 & A3) (B1 & B2 & B3) E. unfold ecc_assert_equal. cg is_int_equal_C. intros ex ? ? ? Hex. upx.
  cg is_int_equal_C. intros ey ? ? ? Hey. upx. cg xnor_C. intros ez ? ? ? Hez. upx. cg and_C. intros exy ? ? ? Hexy. upx.
  cg and_C. intros exyz ? ? ? Hexyz. upx. cg and_C. intros bo ? ? ? Hbo. upx. cg or_C. intros eq ? ? ? Heq. upx.
  apply equal_dec in E. rewrite E in Heq. apply assert_true_C; auto.
Qed.
Lemma ecc_assert_equal_nz_C c0 a b x1 y1 x2 y2 : wf c0 -> hn c0 a x1 y1 -> hn c0 b x2 y2 ->
  x1 ≡ x2 ⟨w⟩ -> y1 ≡ y2 ⟨w⟩ -> CT c0 (ecc_assert_equal_non_zero I a b) (fun _ _ => True).
Proof.
  intros W0 (A1 & A2) (B1 & B2) Ex Ey. unfold ecc_assert_equal_non_zero. cg assert_int_equal_C. intros u ? ? ? _. upx.
  eapply (assert_int_equal_C w I IO); eauto.
Qed.
Lemma ecc_add_unsafe_C c0 a b x1 y1 x2 y2 : wf c0 -> hn c0 a x1 y1 -> hn c0 b x2 y2 -> x1 mod w <> x2 mod w ->
  CT c0 (ecc_add_unsafe I a b) (fun r c => exists p x y, r = UOk p /\ hn c p x y /\
     pt_add w (dec w x1 y1 false) (dec w x2 y2 false) (dec w x y false)).
Proof.
  intros W0 (A1 & A2) (B1 & B2) NE. unfold ecc_add_unsafe. cg int_sub_C. intros dx ? ? ? Hdx. upx.
  cg int_sub_C. intros dy ? ? ? Hdy. upx.
  cg int_div_C. intros t ? ? ? (Hxe & q & Hq & Q). upx.
  assert (NE' : (x1 - x2) mod w =? 0 = false) by (rewrite sub_mod0; apply Z.eqb_neq; exact NE).
  rewrite NE' in Hxe. cg try_assert_false_C. intros su ? ? ? ->. upx.
  eapply CT_bind; [eapply (lambda_nz_C _ _ a b _ x1 y1 x2 y2); [auto|exact Hq|split; auto|split; auto]|]. intros p ? ? ? Hp. apply CT_ret; [auto|].
  do 3 eexists. split; [reflexivity|]. split; [exact Hp|].
  rewrite <- third_dec. unfold dec. apply add_chord; [exact NE|].
  match goal with |- ?a mod w = ?b mod w => change (a ≡ b ⟨w⟩) end. estrip. apply Q. apply Z.eqb_neq. exact NE'.
Qed.
Lemma ecc_double_unsafe_C c0 a x1 y1 : wf c0 -> hn c0 a x1 y1 -> (2 * y1) mod w <> 0 ->
  CT c0 (ecc_double_unsafe I a) (fun r c => exists p x y, r = UOk p /\ hn c p x y /\
     pt_add w (dec w x1 y1 false) (dec w x1 y1 false) (dec w x y false)).
Proof.
  intros W0 (A1 & A2) NE. unfold ecc_double_unsafe. cg curvature_of_C. intros t ? ? ? (l & k & Hk & Hl & TO). upx.
  assert (k = false) as -> by (destruct TO as [-> _]; apply Z.eqb_neq; exact NE).
  cg try_assert_false_C. intros su ? ? ? ->. upx.
  eapply CT_bind; [eapply (lambda_nz_C _ _ a a _ x1 y1 x1 y1); [auto|exact Hl|split; auto|split; auto]|]. intros p ? ? ? Hp. apply CT_ret; [auto|].
  do 3 eexists. split; [reflexivity|]. split; [exact Hp|]. apply (double_dec w x1 y1 false l false). auto.
Qed.
End Hon.
(** Carrying handles over to an extended state. *)
Ltac upz := repeat match goal with E : extends ?c ?c' |- _ => up E;
  repeat match goal with
  | H : hp _ _ c _ _ _ _ |- _ => apply (hp_mono _ _ _ _ _ _ _ _ E) in H
  | H : hpc _ _ c _ _ _ _ _ _ |- _ => apply (hpc_mono _ _ _ _ _ _ _ _ _ _ E) in H
  | H : hn _ _ c _ _ _ |- _ => apply (hn_mono _ _ _ _ _ _ _ E) in H
  end; clear E end.
