(** The point gadgets of ecc_chip.rs: append-only, soundness and honest runs, on
    the residue representation of IntRes.v. *)
From Verif Require Import Prelude FieldZ Circuit Context Spec Logic ModArith Prims BaseChip BaseProofs
  RangeInfo RangeChip IntegerChip SpecInt InfoProofs IntArith RangeProofs IntInv IntSound IntComplete IntBridge
  IntRes EccChip SpecEcc Curve EccArith.

Section App.
Context {NM : NMod}.
Variable I : rinfo.
Ltac ap := intros; repeat first [apply appends_bind; [app|intros ?] | app].
Lemma appends_assign_constant_point p : appends (assign_constant_point I p).
Proof. unfold assign_constant_point. ap. Qed.
Lemma appends_curve_sides cb x y : appends (curve_sides I cb x y).
Proof. unfold curve_sides. ap. Qed.
Hint Resolve appends_curve_sides : app.
Lemma appends_assign_point cb p : appends (assign_point I cb p).
Proof. unfold assign_point. ap. Qed.
Lemma appends_assign_non_zero_point cb p : appends (assign_non_zero_point I cb p).
Proof. unfold assign_non_zero_point. ap. Qed.
Lemma appends_assign_identity : appends (assign_identity I).
Proof. unfold assign_identity. ap. Qed.
Lemma appends_bisec_point k a b : appends (bisec_point I k a b).
Proof. unfold bisec_point. ap. Qed.
Lemma appends_bisec_curvature k a b : appends (bisec_curvature I k a b).
Proof. unfold bisec_curvature. ap. Qed.
Hint Resolve appends_bisec_point appends_bisec_curvature appends_assign_identity : app.
Lemma appends_bisec_pointc k a b : appends (bisec_point_with_curvature I k a b).
Proof. unfold bisec_point_with_curvature. ap. Qed.
Lemma appends_lambda_xy l ax ay bx : appends (lambda_xy I l ax ay bx).
Proof. unfold lambda_xy. ap. Qed.
Hint Resolve appends_lambda_xy : app.
Lemma appends_lambda_to_point l a b : appends (lambda_to_point I l a b).
Proof. unfold lambda_to_point. ap. Qed.
Hint Resolve appends_lambda_to_point : app.
Lemma appends_ecc_add a b : appends (ecc_add I a b).
Proof. unfold ecc_add. ap. Qed.
Lemma appends_ecc_double ord a : appends (ecc_double I ord a).
Proof. unfold ecc_double. ap. Qed.
Lemma appends_ecc_assert_equal a b : appends (ecc_assert_equal I a b).
Proof. unfold ecc_assert_equal. ap. Qed.
Lemma appends_ecc_neg a : appends (ecc_neg I a).
Proof. unfold ecc_neg. ap. Qed.
Lemma appends_ecc_reduce a : appends (ecc_reduce I a).
Proof. unfold ecc_reduce. ap. Qed.
Lemma appends_curvature_of x y : appends (curvature_of I x y).
Proof. unfold curvature_of. ap. Qed.
Hint Resolve appends_ecc_reduce appends_curvature_of : app.
Lemma appends_ecc_reduce_with_curvature a : appends (ecc_reduce_with_curvature I a).
Proof. unfold ecc_reduce_with_curvature. ap. Qed.
Lemma appends_to_pointc a : appends (to_point_with_curvature I a).
Proof. unfold to_point_with_curvature. ap. Qed.
Lemma appends_ecc_encode a : appends (ecc_encode I a).
Proof. unfold ecc_encode. ap. Qed.
Lemma appends_lambda_nz l a b : appends (lambda_to_point_non_zero I l a b).
Proof. unfold lambda_to_point_non_zero. ap. Qed.
Hint Resolve appends_lambda_nz : app.
Lemma appends_ecc_add_unsafe a b : appends (ecc_add_unsafe I a b).
Proof. unfold ecc_add_unsafe. ap. Qed.
Lemma appends_ecc_double_unsafe a : appends (ecc_double_unsafe I a).
Proof. unfold ecc_double_unsafe. ap. Qed.
Lemma appends_ecc_neg_nz a : appends (ecc_neg_non_zero I a).
Proof. unfold ecc_neg_non_zero. ap. Qed.
Lemma appends_ecc_reduce_nz a : appends (ecc_reduce_non_zero I a).
Proof. unfold ecc_reduce_non_zero. ap. Qed.
Lemma appends_ecc_bisec_nz k a b : appends (ecc_bisec_non_zero_point I k a b).
Proof. unfold ecc_bisec_non_zero_point. ap. Qed.
Lemma appends_assert_equal_nz a b : appends (ecc_assert_equal_non_zero I a b).
Proof. unfold ecc_assert_equal_non_zero. ap. Qed.
Lemma appends_downgrade a : appends (ecc_non_zero_point_downgrade a).
Proof. unfold ecc_non_zero_point_downgrade. ap. Qed.
Lemma appends_bisec_to_nz a b : appends (ecc_bisec_to_non_zero_point I a b).
Proof. unfold ecc_bisec_to_non_zero_point. ap. Qed.
End App.
Global Hint Resolve appends_assign_constant_point appends_curve_sides appends_assign_point
  appends_assign_non_zero_point appends_assign_identity appends_bisec_point appends_bisec_curvature
  appends_bisec_pointc appends_lambda_xy appends_lambda_to_point appends_ecc_add appends_ecc_double
  appends_ecc_assert_equal appends_ecc_neg appends_ecc_reduce appends_curvature_of
  appends_ecc_reduce_with_curvature appends_to_pointc appends_ecc_encode appends_lambda_nz
  appends_ecc_add_unsafe appends_ecc_double_unsafe appends_ecc_neg_nz appends_ecc_reduce_nz
  appends_ecc_bisec_nz appends_assert_equal_nz appends_downgrade appends_bisec_to_nz : app.

Section Ecc.
Context {NM : NMod}.
Variable w : Z.
Variable I : rinfo.
Hypothesis IO : info_ok w I.
Hypothesis n_prime : prime nmod.
Hypothesis w_prime : prime w.
Variable cv_b : Z.
Hypothesis b_range : 0 <= cv_b < w.

Section S.
Variable T : env.
Variable A : cell -> Z.
Hypothesis A_range : forall x, 0 <= A x < nmod.
Local Notation ir := (ir w I A).
Local Notation br := (br A).
Local Notation ST := (ST T A).

Definition gp (a : apoint) (x y : Z) (z : bool) : Prop := ir (p_x a) x /\ ir (p_y a) y /\ br (p_z a) z.
Definition gn (a : anz) (x y : Z) : Prop := ir (nz_x a) x /\ ir (nz_y a) y.
Definition gpc (a : apointc) (x y : Z) (z : bool) (l : Z) (k : bool) : Prop :=
  gp (to_point a) x y z /\ ir (k_v (pc_c a)) l /\ br (k_z (pc_c a)) k.

Ltac sret := apply ST_ret.

Lemma lambda_xy_R l ax ay bx rl x1 y1 x2 : ir l rl -> ir ax x1 -> ir ay y1 -> ir bx x2 ->
  ST (lambda_xy I l ax ay bx) (fun r => ir (fst r) (lam_x rl x1 x2) /\ ir (snd r) (lam_y rl x1 y1 x2)).
Proof.
  intros Hl Hx Hy Hb. unfold lambda_xy. sg int_square_R. intros l2 H2. sg int_sub_R. intros t Ht.
  sg int_sub_R. intros cx Hcx. sg int_sub_R. intros t1 Ht1. sg int_mul_R. intros t2 Ht2.
  sg int_sub_R. intros cy Hcy. sret. cbn [fst snd]. split; [exact Hcx|]. exact Hcy.
Qed.

Lemma curve_sides_R ax ay x y : ir ax x -> ir ay y ->
  ST (curve_sides I cv_b ax ay) (fun r => ir (fst r) (y * y) /\ ir (snd r) (x * x * x + cv_b)).
Proof.
  intros Hx Hy. unfold curve_sides. sg assign_int_constant_R. intros vb (Hvb & Tvb). sg int_square_R. intros y2 Hy2.
  sg int_square_R. intros x2 Hx2. sg int_mul_R. intros x3 Hx3. sg int_add_R. intros r Hr. sret. auto.
Qed.

(** Without any assumption on the flag: it is 1, or the coordinates satisfy the
    curve equation. *)
Lemma assign_point_R p :
  ST (assign_point I cv_b p) (fun r => exists x y, ir (p_x r) x /\ ir (p_y r) y /\
     (vA A (p_z r) = 1 \/ on_curve w cv_b (Aff (x mod w) (y mod w)))).
Proof.
  unfold assign_point. sg assign_w_R. intros ax (x & Rx & Hx). sg assign_w_R. intros ay (y & Ry & Hy).
  eapply ST_bind; [apply (ST_true T A)|app|app|cbv beta]. intros z _. sg curve_sides_R. intros s (H1 & H2).
  sg is_int_equal_R. intros eq He. cbv beta in He.
  eapply ST_bind; [apply or_ST; auto|app|app|cbv beta]. intros o Ho. cbv beta in Ho.
  eapply ST_bind; [apply assert_true_ST; auto|app|app|cbv beta]. intros u Hu. cbv beta in Hu. sret. cbn [p_x p_y p_z].
  exists x, y. split; [auto|]. split; [auto|].
  destruct ((y * y - (x * x * x + cv_b)) mod w =? 0) eqn:E.
  - right. apply Z.eqb_eq in E. rewrite !Z.mod_small by auto. split; [auto|]. split; [auto|].
    apply eqm_0_iff in E. apply eqm_sub_0 in E. exact E.
  - left. rewrite Hu in Ho. unfold IntRes.br in He. rewrite He in Ho. cbn [Z.b2z] in Ho.
    pose proof (n_pos n_prime). apply (eqm_small nmod); [rewrite Ho; apply eqm_eq; ring|apply A_range|lia].
Qed.
(** The flag is a bit when the assignment is consistent on [assign_bit] rows. *)
Lemma assign_point_bit_R p : bitc T ->
  ST (assign_point I cv_b p) (fun r => exists x y z, gp r x y z /\ on_curve w cv_b (dec w x y z)).
Proof.
  intros BC. unfold assign_point. sg assign_w_R. intros ax (x & Rx & Hx). sg assign_w_R. intros ay (y & Ry & Hy).
  eapply ST_bind; [apply assign_bit_ST; auto|app|app|cbv beta]. intros z Hz. cbv beta in Hz. sg curve_sides_R. intros s (H1 & H2).
  sg is_int_equal_R. intros eq He. cbv beta in He.
  assert (exists kz, br z kz) as [kz Hkz].
  { destruct Hz as [Hz|Hz]; [exists false|exists true]; exact Hz. }
  sg or_R. intros o Ho. sg assert_true_R. intros u Hu. cbv beta in Hu. sret.
  exists x, y, kz. split; [unfold gp; auto|]. destruct kz; [exact Logic.I|].
  rewrite Bool.orb_false_r in Hu. apply Z.eqb_eq in Hu. apply eqm_0_iff, eqm_sub_0 in Hu.
  unfold dec. rewrite !Z.mod_small by auto. split; [auto|]. split; [auto|]. exact Hu.
Qed.
Lemma assign_nz_R p :
  ST (assign_non_zero_point I cv_b p) (fun r => exists x y, gn r x y /\ on_curve w cv_b (Aff x y)).
Proof.
  unfold assign_non_zero_point. eapply ST_bind; [apply (ST_true T A)|app|app|cbv beta]. intros q _.
  sg assign_w_R. intros ax (x & Rx & Hx). sg assign_w_R. intros ay (y & Ry & Hy).
  sg curve_sides_R. intros s (H1 & H2). sg assert_int_equal_R. intros u Hu. cbv beta in Hu. sret.
  exists x, y. split; [split; auto|]. split; [auto|]. split; [auto|]. exact Hu.
Qed.
Lemma assign_constant_point_R p : (forall x y, p = Some (x, y) -> 0 <= x < w /\ 0 <= y < w) ->
  ST (assign_constant_point I p) (fun r => gp r (fst (coords p)) (snd (coords p)) (is_identity p)).
Proof.
  intros Hp. pose proof (w_pos w w_prime). assert (R : 0 <= fst (coords p) < w /\ 0 <= snd (coords p) < w).
  { destruct p as [[x y]|]; cbn; [apply Hp; reflexivity|lia]. }
  destruct R. unfold assign_constant_point. sg assign_int_constant_R. intros ax (Hx & Tx). sg assign_int_constant_R. intros ay (Hy & Ty).
  change (b2n (is_identity p)) with (Z.b2z (is_identity p)). sg assign_constant_R. intros z Hz. sret.
  split; [|split]; auto.
Qed.
Lemma assign_identity_R : ST (assign_identity I) (fun r => gpc r 0 0 true 0 true /\
  i_times (pc_x r) = 1 /\ i_times (pc_y r) = 1).
Proof.
  pose proof (w_pos w w_prime). unfold assign_identity.
  eapply ST_bind; [apply (assign_int_constant_R w I IO w_prime T A A_range 0); lia|app|app|cbv beta]. intros z (Hz & Tz).
  change 1 with (Z.b2z true) at 1. sg assign_constant_R. intros o Ho. sret. cbn [pc_x pc_y]. split; [|auto].
  unfold gpc, gp; auto 10.
Qed.
Lemma bisec_point_R c k a b x1 y1 z1 x2 y2 z2 : br c k -> gp a x1 y1 z1 -> gp b x2 y2 z2 ->
  ST (bisec_point I c a b) (fun r => gp r (if k then x1 else x2) (if k then y1 else y2) (if k then z1 else z2) /\
     i_times (p_x r) = Z.max (i_times (p_x a)) (i_times (p_x b)) /\ i_times (p_y r) = Z.max (i_times (p_y a)) (i_times (p_y b))).
Proof.
  intros Hc (A1 & A2 & A3) (B1 & B2 & B3). unfold bisec_point. sg bisec_int_R. intros x (Hx & Tx). sg bisec_int_R. intros y (Hy & Ty).
  sg bisec_cond_R. intros z Hz. sret. cbn [p_x p_y p_z]. split; [|auto]. split; [|split]; auto.
Qed.
Lemma bisec_curvature_R c k a b l1 k1 l2 k2 : br c k -> ir (k_v a) l1 -> br (k_z a) k1 -> ir (k_v b) l2 -> br (k_z b) k2 ->
  ST (bisec_curvature I c a b) (fun r => ir (k_v r) (if k then l1 else l2) /\ br (k_z r) (if k then k1 else k2)).
Proof.
  intros Hc A1 A2 B1 B2. unfold bisec_curvature. sg bisec_int_R. intros x (Hx & Tx). sg bisec_cond_R. intros z Hz. sret. auto.
Qed.
Lemma bisec_pointc_R c k a b x1 y1 z1 l1 k1 x2 y2 z2 l2 k2 : br c k -> gpc a x1 y1 z1 l1 k1 -> gpc b x2 y2 z2 l2 k2 ->
  ST (bisec_point_with_curvature I c a b) (fun r => if k then gpc r x1 y1 z1 l1 k1 else gpc r x2 y2 z2 l2 k2).
Proof.
  intros Hc ((A1 & A2 & A3) & A4 & A5) ((B1 & B2 & B3) & B4 & B5). unfold bisec_point_with_curvature.
  cbn [to_point p_x p_y p_z] in *.
  sg bisec_int_R. intros x (Hx & Tx). sg bisec_int_R. intros y (Hy & Ty).
  sg bisec_cond_R. intros z Hz. sg bisec_curvature_R. intros cu (Hl & Hk). sret. destruct k; unfold gpc, gp; auto 10.
Qed.
Lemma curvature_of_R ax ay x y : ir ax x -> ir ay y ->
  ST (curvature_of I ax ay) (fun r => exists l k, br (fst r) k /\ ir (snd r) l /\ tangent_ok w x y l k).
Proof.
  intros Hx Hy. unfold curvature_of. sg int_square_R. intros x2 H2.
  eapply ST_bind; [apply (int_mul_small_R w I IO n_prime w_prime T A A_range x2 3 (x * x)); [lia|auto]|app|app|cbv beta]. intros nu Hn.
  eapply ST_bind; [apply (int_mul_small_R w I IO n_prime w_prime T A A_range ay 2 y); [lia|auto]|app|app|cbv beta]. intros de Hd.
  eapply ST_weaken; [eapply (int_div_R w I IO); eauto|]. intros r (Hb & q & Hq & E).
  exists q, ((y * 2) mod w =? 0). split; [auto|]. split; [auto|]. split.
  - f_equal. f_equal. ring.
  - intros K. apply Z.eqb_neq in K. specialize (E K). rewrite (Z.mul_comm 2 y). rewrite E. apply eqm_eq. ring.
Qed.
Lemma lambda_to_point_R lam a b l k x1 y1 z1 x2 y2 z2 : ir (k_v lam) l -> br (k_z lam) k -> gp a x1 y1 z1 -> gp b x2 y2 z2 ->
  ST (lambda_to_point I lam a b) (fun r => gp r (lam_x l x1 x2) (lam_y l x1 y1 x2) k).
Proof.
  intros Hl Hk (A1 & A2 & A3) (B1 & B2 & B3). unfold lambda_to_point. sg lambda_xy_R. intros c (H1 & H2). sret.
  split; [|split]; auto.
Qed.
Lemma ecc_add_R a b x1 y1 z1 l1 k1 x2 y2 z2 : gpc a x1 y1 z1 l1 k1 -> gp b x2 y2 z2 ->
  (z1 = false -> tangent_ok w x1 y1 l1 k1) ->
  on_curve w cv_b (dec w x1 y1 z1) -> on_curve w cv_b (dec w x2 y2 z2) ->
  ST (ecc_add I a b) (fun r => exists x y z, gp r x y z /\ pt_add w (dec w x1 y1 z1) (dec w x2 y2 z2) (dec w x y z)).
Proof.
  intros (Ha & A4 & A5) Hb T1 C1 C2. pose proof Ha as (A1 & A2 & A3). pose proof Hb as (B1 & B2 & B3).
  cbn [to_point p_x p_y p_z] in A1, A2, A3.
  unfold ecc_add. sg int_sub_R. intros dx Hdx. sg int_sub_R. intros dy Hdy. sg int_div_R. intros t (Hxe & q & Hq & Q).
  sg is_int_zero_R. intros ye Hye. sg and_R. intros eq Heq.
  eapply ST_bind; [eapply (bisec_curvature_R eq _ (pc_c a) (mkCurv (snd t) (fst t))); eauto|app|app|cbv beta].
  intros lam (Hl & Hk). cbv zeta. sg lambda_to_point_R. intros p Hp. sg bisec_point_R. intros p' (Hp' & _).
  eapply ST_weaken; [eapply bisec_point_R; eauto|]. intros r (Hr & _).
  do 3 eexists. split; [exact Hr|]. eapply add_dec; eauto.
Qed.
Lemma ecc_double_R ord a x1 y1 z1 l1 k1 : gpc a x1 y1 z1 l1 k1 -> (z1 = false -> tangent_ok w x1 y1 l1 k1) ->
  ST (ecc_double I ord a) (fun r => exists x y z, gp r x y z /\ pt_add w (dec w x1 y1 z1) (dec w x1 y1 z1) (dec w x y z)).
Proof.
  intros (Ha & A4 & A5) T1. pose proof Ha as (A1 & A2 & A3). unfold ecc_double. apply ST_assert_k. intros _.
  cbv zeta. sg lambda_to_point_R. intros p (H1 & H2 & H3).
  eapply ST_bind; [eapply bisec_cond_R; [auto..|exact A3|exact A3|exact H3]|app|app|cbv beta]. intros z Hz. cbv beta in Hz. sret.
  do 3 eexists. split; [split; [exact H1|split; [exact H2|exact Hz]]|]. apply double_dec. exact T1.
Qed.
Lemma ecc_neg_R a x y z : gp a x y z -> ST (ecc_neg I a) (fun r => gp r x (- y) z).
Proof. intros (A1 & A2 & A3). unfold ecc_neg. sg int_neg_R. intros r Hr. sret. split; [|split]; auto. Qed.
Lemma ecc_reduce_R a x y z : gp a x y z ->
  ST (ecc_reduce I a) (fun r => gp r (if z then 0 else x) (if z then 0 else y) z /\ i_times (p_x r) = 1 /\ i_times (p_y r) = 1).
Proof.
  intros (A1 & A2 & A3). unfold ecc_reduce. sg reduce_R. intros x' (Hx & Tx). sg reduce_R. intros y' (Hy & Ty).
  sg assign_identity_R. intros id ((Hid & _) & Tix & Tiy).
  eapply ST_weaken; [apply (bisec_point_R (p_z a) z (to_point id) (mkPt x' y' (p_z a)) 0 0 true x y z); auto; split; auto|].
  intros r (Hr & T1 & T2). cbn [p_x p_y to_point] in *. split; [|lia]. destruct Hr as (R1 & R2 & R3). split; [auto|]. split; [auto|].
  destruct z; exact R3.
Qed.
Lemma dec_reduced (x y : Z) (z : bool) : dec w (if z then 0 else x) (if z then 0 else y) z = dec w x y z.
Proof. destruct z; reflexivity. Qed.
Lemma ecc_reduce_with_curvature_R a x y z : gp a x y z ->
  ST (ecc_reduce_with_curvature I a) (fun r => exists x' y' l k, gpc r x' y' z l k /\ (z = false -> tangent_ok w x' y' l k)
      /\ dec w x' y' z = dec w x y z /\ i_times (pc_x r) = 1 /\ i_times (pc_y r) = 1 /\ i_times (k_v (pc_c r)) = 1).
Proof.
  intros H. unfold ecc_reduce_with_curvature. sg ecc_reduce_R. intros a' ((A1 & A2 & A3) & T1 & T2).
  sg curvature_of_R. intros r (l & k & Hk & Hl & TO). sg reduce_R. intros v (Hv & Tv). sret.
  do 4 eexists. split; [|split; [|split; [apply dec_reduced|cbn; auto]]].
  - split; [split; [exact A1|split; [exact A2|exact A3]]|split; [exact Hv|exact Hk]].
  - intros _. exact TO.
Qed.
Lemma to_pointc_R a x y z : gp a x y z ->
  ST (to_point_with_curvature I a) (fun r => exists l k, gpc r x y z l k /\ tangent_ok w x y l k).
Proof.
  intros (A1 & A2 & A3). unfold to_point_with_curvature. sg curvature_of_R. intros r (l & k & Hk & Hl & TO). sret.
  exists l, k. split; [|exact TO]. split; [split; [exact A1|split; [exact A2|exact A3]]|split; [exact Hl|exact Hk]].
Qed.
Lemma ecc_assert_equal_R a b x1 y1 z1 x2 y2 z2 : gp a x1 y1 z1 -> gp b x2 y2 z2 ->
  ST (ecc_assert_equal I a b) (fun _ => dec w x1 y1 z1 = dec w x2 y2 z2).
Proof.
  intros (A1 & A2 & A3) (B1 & B2 & B3). unfold ecc_assert_equal. sg is_int_equal_R. intros ex Hex.
  sg is_int_equal_R. intros ey Hey. sg xnor_R. intros ez Hez. sg and_R. intros exy Hexy. sg and_R. intros exyz Hexyz.
  sg and_R. intros bo Hbo. sg or_R. intros eq Heq. eapply ST_weaken; [eapply assert_true_R; eauto|].
  intros u Hu. apply equal_dec; auto.
Qed.

(** Points known not to be the identity. *)
Lemma lambda_nz_R lam a b l x1 y1 x2 y2 : ir lam l -> gn a x1 y1 -> gn b x2 y2 ->
  ST (lambda_to_point_non_zero I lam a b) (fun r => gn r (lam_x l x1 x2) (lam_y l x1 y1 x2)).
Proof.
  intros Hl (A1 & A2) (B1 & B2). unfold lambda_to_point_non_zero. sg lambda_xy_R. intros c (H1 & H2). sret. split; auto.
Qed.
Lemma ecc_add_unsafe_R a b x1 y1 x2 y2 : gn a x1 y1 -> gn b x2 y2 ->
  ST (ecc_add_unsafe I a b) (fun r => x1 mod w <> x2 mod w /\ exists p x y, r = UOk p /\ gn p x y /\
     pt_add w (dec w x1 y1 false) (dec w x2 y2 false) (dec w x y false)).
Proof.
  intros (A1 & A2) (B1 & B2). unfold ecc_add_unsafe. sg int_sub_R. intros dx Hdx. sg int_sub_R. intros dy Hdy.
  sg int_div_R. intros t (Hxe & q & Hq & Q). sg try_assert_false_R. intros su (NE & ->).
  eapply ST_bind; [eapply (lambda_nz_R _ a b _ x1 y1 x2 y2 Hq); split; auto|app|app|cbv beta]. intros p Hp. sret.
  rewrite sub_mod0 in NE. apply Z.eqb_neq in NE. split; [exact NE|]. do 3 eexists. split; [reflexivity|]. split; [exact Hp|].
  rewrite <- third_dec. unfold dec. apply add_chord; [exact NE|].
  match goal with |- ?a mod w = ?b mod w => change (a ≡ b ⟨w⟩) end. estrip. apply Q.
  intros K. apply NE. apply eqm_0_iff in K. apply eqm_sub_0 in K. exact K.
Qed.
Lemma ecc_double_unsafe_R a x1 y1 : gn a x1 y1 ->
  ST (ecc_double_unsafe I a) (fun r => (2 * y1) mod w <> 0 /\ exists p x y, r = UOk p /\ gn p x y /\
     pt_add w (dec w x1 y1 false) (dec w x1 y1 false) (dec w x y false)).
Proof.
  intros (A1 & A2). unfold ecc_double_unsafe. sg curvature_of_R. intros t (l & k & Hk & Hl & TO).
  sg try_assert_false_R. intros su (-> & ->).
  eapply ST_bind; [eapply (lambda_nz_R _ a a _ x1 y1 x1 y1 Hl); split; auto|app|app|cbv beta]. intros p Hp. sret.
  split; [apply Z.eqb_neq; symmetry; apply TO|]. do 3 eexists. split; [reflexivity|]. split; [exact Hp|].
  apply (double_dec w x1 y1 false l false). auto.
Qed.
Lemma ecc_neg_nz_R a x y : gn a x y -> ST (ecc_neg_non_zero I a) (fun r => gn r x (- y)).
Proof. intros (A1 & A2). unfold ecc_neg_non_zero. sg int_neg_R. intros r Hr. sret. split; auto. Qed.
Lemma ecc_reduce_nz_R a x y : gn a x y ->
  ST (ecc_reduce_non_zero I a) (fun r => gn r x y /\ i_times (nz_x r) = 1 /\ i_times (nz_y r) = 1).
Proof.
  intros (A1 & A2). unfold ecc_reduce_non_zero. sg reduce_R. intros x' (Hx & ?). sg reduce_R. intros y' (Hy & ?). sret.
  split; [split; auto|cbn; auto].
Qed.
Lemma ecc_bisec_nz_R c k a b x1 y1 x2 y2 : br c k -> gn a x1 y1 -> gn b x2 y2 ->
  ST (ecc_bisec_non_zero_point I c a b) (fun r => gn r (if k then x1 else x2) (if k then y1 else y2)).
Proof.
  intros Hc (A1 & A2) (B1 & B2). unfold ecc_bisec_non_zero_point. sg bisec_int_R. intros x (Hx & Tx). sg bisec_int_R. intros y (Hy & Ty).
  sret. split; auto.
Qed.
Lemma ecc_assert_equal_nz_R a b x1 y1 x2 y2 : gn a x1 y1 -> gn b x2 y2 ->
  ST (ecc_assert_equal_non_zero I a b) (fun _ => x1 ≡ x2 ⟨w⟩ /\ y1 ≡ y2 ⟨w⟩).
Proof.
  intros (A1 & A2) (B1 & B2). unfold ecc_assert_equal_non_zero. sg assert_int_equal_R. intros u Hu.
  eapply ST_weaken; [eapply (assert_int_equal_R w I IO); eauto|]. intros v Hv. auto.
Qed.
Lemma downgrade_R a x y : gn a x y -> ST (ecc_non_zero_point_downgrade a) (fun r => gp r x y false).
Proof.
  intros (A1 & A2). unfold ecc_non_zero_point_downgrade. change 0 with (Z.b2z false). sg assign_constant_R.
  intros z Hz. sret. split; [|split]; auto.
Qed.
Lemma bisec_to_nz_R a b x1 y1 z x2 y2 : gp a x1 y1 z -> gn b x2 y2 ->
  ST (ecc_bisec_to_non_zero_point I a b) (fun r => gn r (if z then x2 else x1) (if z then y2 else y1)).
Proof.
  intros (A1 & A2 & A3) (B1 & B2). unfold ecc_bisec_to_non_zero_point. sg bisec_int_R. intros x (Hx & Tx). sg bisec_int_R.
  intros y (Hy & Ty). sret. split; auto.
Qed.
End S.
End Ecc.
