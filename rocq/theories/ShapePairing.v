(** Shape independence of the tower and pairing gadgets. *)
From Verif Require Import Prelude FieldZ Circuit Context Spec Logic Prims BaseChip RangeInfo RangeChip IntegerChip EccChip ScalarChip Msm ParWindows
  SpecShape Shape Moduli PairingConsts Fq12Chip PairingChip SpecShapePairing.
Lemma sf2_0 a b : sf2 a b -> saint (fst a) (fst b). Proof. intros H; apply H. Qed.
Lemma sf2_1 a b : sf2 a b -> saint (snd a) (snd b). Proof. intros H; apply H. Qed.
Lemma sf6_0 a b : sf6 a b -> sf2 (t0 a) (t0 b). Proof. intros H; apply H. Qed.
Lemma sf6_1 a b : sf6 a b -> sf2 (t1 a) (t1 b). Proof. intros H; apply H. Qed.
Lemma sf6_2 a b : sf6 a b -> sf2 (t2 a) (t2 b). Proof. intros H; apply H. Qed.
Lemma sco_0 a b : scoeff a b -> sf2 (t0 a) (t0 b). Proof. intros H; apply H. Qed.
Lemma sco_1 a b : scoeff a b -> sf2 (t1 a) (t1 b). Proof. intros H; apply H. Qed.
Lemma sco_2 a b : scoeff a b -> sf2 (t2 a) (t2 b). Proof. intros H; apply H. Qed.
Lemma sf12_0 a b : sf12 a b -> sf6 (fst a) (fst b). Proof. intros H; apply H. Qed.
Lemma sf12_1 a b : sf12 a b -> sf6 (snd a) (snd b). Proof. intros H; apply H. Qed.
Lemma sf44_0 (a b : afq2 * afq2) : both sf2 sf2 a b -> sf2 (fst a) (fst b). Proof. intros H; apply H. Qed.
Lemma sf44_1 (a b : afq2 * afq2) : both sf2 sf2 a b -> sf2 (snd a) (snd b). Proof. intros H; apply H. Qed.
Lemma sds_0 (a b : ag2 * acoeff) : both sg2 scoeff a b -> sg2 (fst a) (fst b). Proof. intros H; apply H. Qed.
Lemma sds_1 (a b : ag2 * acoeff) : both sg2 scoeff a b -> scoeff (snd a) (snd b). Proof. intros H; apply H. Qed.
Lemma sdl_0 (a b : ag2 * list acoeff) : both sg2 (Forall2 scoeff) a b -> sg2 (fst a) (fst b). Proof. intros H; apply H. Qed.
Lemma sdl_1 (a b : ag2 * list acoeff) : both sg2 (Forall2 scoeff) a b -> Forall2 scoeff (snd a) (snd b). Proof. intros H; apply H. Qed.
Lemma sf2_mk a b c d : saint a c -> saint b d -> sf2 (a, b) (c, d). Proof. split; assumption. Qed.
Lemma sf44_mk (a b c d : afq2) : sf2 a c -> sf2 b d -> both sf2 sf2 (a, b) (c, d). Proof. split; assumption. Qed.
Lemma sf6_mk a b c a' b' c' : sf2 a a' -> sf2 b b' -> sf2 c c' -> sf6 (a, b, c) (a', b', c'). Proof. repeat split; try apply H; try apply H0; apply H1. Qed.
Lemma sco_mk a b c a' b' c' : sf2 a a' -> sf2 b b' -> sf2 c c' -> scoeff (a, b, c) (a', b', c'). Proof. repeat split; try apply H; try apply H0; apply H1. Qed.
Lemma sf12_mk a b a' b' : sf6 a a' -> sf6 b b' -> sf12 (a, b) (a', b'). Proof. split; assumption. Qed.
Lemma sg2_mk a b c a' b' c' : sf2 a a' -> sf2 b b' -> sf2 c c' -> sg2 (mkG2 a b c) (mkG2 a' b' c'). Proof. constructor; assumption. Qed.
Lemma sg2a_mk a b c a' b' c' : sf2 a a' -> sf2 b b' -> sav c c' -> sg2a (mkG2a a b c) (mkG2a a' b' c'). Proof. constructor; assumption. Qed.
Lemma sds_mk a b a' b' : sg2 a a' -> scoeff b b' -> both sg2 scoeff (a, b) (a', b'). Proof. split; assumption. Qed.
Lemma scl_mk a b c a' b' c' : Forall2 scoeff a a' -> scoeff b b' -> scoeff c c' -> Forall2 scoeff (a ++ [b] ++ [c]) (a' ++ [b'] ++ [c']).
Proof. intros H1 H2 H3. apply Forall2_app; [exact H1|]. repeat constructor; try apply H2; apply H3. Qed.
Lemma any_i {X Y} (x : X) (y : Y) : any x y. Proof. exact Logic.I. Qed.
Create HintDb prj discriminated.
#[export] Hint Constants Opaque : prj.
#[export] Hint Transparent afq2 afq6 afq12 acoeff : prj.
#[export] Hint Resolve sf2_0 sf2_1 sf6_0 sf6_1 sf6_2 sco_0 sco_1 sco_2 sf12_0 sf12_1 sf44_0 sf44_1 sds_0 sds_1 sdl_0 sdl_1 sf2_mk sf44_mk sf6_mk sco_mk sf12_mk sg2_mk sg2a_mk sds_mk scl_mk any_i
  sga_x sga_y sga_z sgj_x sgj_y sgj_z sp_x sp_y sp_z : prj.
Ltac prj := solve [eauto 8 with prj nocore].
Create HintDb trdb.
#[export] Hint Extern 0 (SR _ (reduce _ _) (reduce _ _)) => (eapply sr_reduce; prj) : trdb.
#[export] Hint Extern 0 (SR _ (int_add _ _ _) (int_add _ _ _)) => (eapply sr_int_add; prj) : trdb.
#[export] Hint Extern 0 (SR _ (int_sub _ _ _) (int_sub _ _ _)) => (eapply sr_int_sub; prj) : trdb.
#[export] Hint Extern 0 (SR _ (int_mul _ _ _) (int_mul _ _ _)) => (eapply sr_int_mul; prj) : trdb.
#[export] Hint Extern 0 (SR _ (int_neg _ _) (int_neg _ _)) => (eapply sr_int_neg; prj) : trdb.
#[export] Hint Extern 0 (SR _ (int_square _ _) (int_square _ _)) => (eapply sr_int_square; prj) : trdb.
#[export] Hint Extern 0 (SR _ (int_unsafe_invert _ _) (int_unsafe_invert _ _)) => (eapply sr_int_unsafe_invert; prj) : trdb.
#[export] Hint Extern 0 (SR _ (assign_int_constant _ _) (assign_int_constant _ _)) => (eapply sr_assign_int_constant) : trdb.
#[export] Hint Extern 0 (SR _ (assert_int_equal _ _ _) (assert_int_equal _ _ _)) => (eapply sr_assert_int_equal; prj) : trdb.
#[export] Hint Extern 0 (SR _ (assert_false _) (assert_false _)) => (eapply sr_assert_false; prj) : trdb.
Ltac tra := cbv beta zeta; repeat (match goal with
  | |- SR _ (mbind _ _) (mbind _ _) => eapply SR_bind; [solve [eauto 1 with trdb nocore]|intros ? ? ?; cbv beta zeta]
  | |- SR _ (mret _) (mret _) => apply SR_ret; prj
  | |- _ => solve [eauto 1 with trdb nocore]
  end).
Section Tower.
Context {NM : NMod}.
Variable I : rinfo.
Variable nonres : afq2 -> M afq2.
Hypothesis Hn : forall a a', sf2 a a' -> SR sf2 (nonres a) (nonres a').
Hint Extern 0 (SR _ (nonres _) (nonres _)) => (eapply Hn; prj) : trdb.
Lemma sr_fq2_reduce x x' : sf2 x x' -> SR sf2 (fq2_reduce I x) (fq2_reduce I x'). Proof. intros; unfold fq2_reduce. tra. Qed.
Hint Extern 0 (SR _ (fq2_reduce _ _) (fq2_reduce _ _)) => (eapply sr_fq2_reduce; prj) : trdb.
Lemma sr_fq2_assert_equal x x' y y' : sf2 x x' -> sf2 y y' -> SR any (fq2_assert_equal I x y) (fq2_assert_equal I x' y'). Proof. intros; unfold fq2_assert_equal. tra. Qed.
Hint Extern 0 (SR _ (fq2_assert_equal _ _ _) (fq2_assert_equal _ _ _)) => (eapply sr_fq2_assert_equal; prj) : trdb.
Lemma sr_fq2_assign_zero  : SR sf2 (fq2_assign_zero I ) (fq2_assign_zero I ). Proof. intros; unfold fq2_assign_zero. tra. Qed.
Hint Extern 0 (SR _ (fq2_assign_zero _) (fq2_assign_zero _)) => (eapply sr_fq2_assign_zero; prj) : trdb.
Lemma sr_fq2_assign_one  : SR sf2 (fq2_assign_one I ) (fq2_assign_one I ). Proof. intros; unfold fq2_assign_one. tra. Qed.
Hint Extern 0 (SR _ (fq2_assign_one _) (fq2_assign_one _)) => (eapply sr_fq2_assign_one; prj) : trdb.
Lemma sr_fq2_assign_constant c : SR sf2 (fq2_assign_constant I c) (fq2_assign_constant I c). Proof. intros; unfold fq2_assign_constant. tra. Qed.
Hint Extern 0 (SR _ (fq2_assign_constant _ _) (fq2_assign_constant _ _)) => (eapply sr_fq2_assign_constant; prj) : trdb.
Lemma sr_fq2_add a a' b b' : sf2 a a' -> sf2 b b' -> SR sf2 (fq2_add I a b) (fq2_add I a' b'). Proof. intros; unfold fq2_add. tra. Qed.
Hint Extern 0 (SR _ (fq2_add _ _ _) (fq2_add _ _ _)) => (eapply sr_fq2_add; prj) : trdb.
Lemma sr_fq2_mul a a' b b' : sf2 a a' -> sf2 b b' -> SR sf2 (fq2_mul I a b) (fq2_mul I a' b'). Proof. intros; unfold fq2_mul. tra. Qed.
Hint Extern 0 (SR _ (fq2_mul _ _ _) (fq2_mul _ _ _)) => (eapply sr_fq2_mul; prj) : trdb.
Lemma sr_fq2_sub a a' b b' : sf2 a a' -> sf2 b b' -> SR sf2 (fq2_sub I a b) (fq2_sub I a' b'). Proof. intros; unfold fq2_sub. tra. Qed.
Hint Extern 0 (SR _ (fq2_sub _ _ _) (fq2_sub _ _ _)) => (eapply sr_fq2_sub; prj) : trdb.
Lemma sr_fq2_double a a' : sf2 a a' -> SR sf2 (fq2_double I a) (fq2_double I a'). Proof. intros; unfold fq2_double. tra. Qed.
Hint Extern 0 (SR _ (fq2_double _ _) (fq2_double _ _)) => (eapply sr_fq2_double; prj) : trdb.
Lemma sr_fq2_square a a' : sf2 a a' -> SR sf2 (fq2_square I a) (fq2_square I a'). Proof. intros; unfold fq2_square. tra. Qed.
Hint Extern 0 (SR _ (fq2_square _ _) (fq2_square _ _)) => (eapply sr_fq2_square; prj) : trdb.
Lemma sr_fq2_neg a a' : sf2 a a' -> SR sf2 (fq2_neg I a) (fq2_neg I a'). Proof. intros; unfold fq2_neg. tra. Qed.
Hint Extern 0 (SR _ (fq2_neg _ _) (fq2_neg _ _)) => (eapply sr_fq2_neg; prj) : trdb.
Lemma sr_fq2_conjugate a a' : sf2 a a' -> SR sf2 (fq2_conjugate I a) (fq2_conjugate I a'). Proof. intros; unfold fq2_conjugate. tra. Qed.
Hint Extern 0 (SR _ (fq2_conjugate _ _) (fq2_conjugate _ _)) => (eapply sr_fq2_conjugate; prj) : trdb.
Lemma sr_fq2_unsafe_invert x x' : sf2 x x' -> SR sf2 (fq2_unsafe_invert I x) (fq2_unsafe_invert I x'). Proof. intros; unfold fq2_unsafe_invert. tra. Qed.
Hint Extern 0 (SR _ (fq2_unsafe_invert _ _) (fq2_unsafe_invert _ _)) => (eapply sr_fq2_unsafe_invert; prj) : trdb.
Lemma sr_fq6_reduce x x' : sf6 x x' -> SR sf6 (fq6_reduce I x) (fq6_reduce I x'). Proof. intros; unfold fq6_reduce. tra. Qed.
Hint Extern 0 (SR _ (fq6_reduce _ _) (fq6_reduce _ _)) => (eapply sr_fq6_reduce; prj) : trdb.
Lemma sr_fq6_assert_equal x x' y y' : sf6 x x' -> sf6 y y' -> SR any (fq6_assert_equal I x y) (fq6_assert_equal I x' y'). Proof. intros; unfold fq6_assert_equal. tra. Qed.
Hint Extern 0 (SR _ (fq6_assert_equal _ _ _) (fq6_assert_equal _ _ _)) => (eapply sr_fq6_assert_equal; prj) : trdb.
Lemma sr_fq6_assign_zero  : SR sf6 (fq6_assign_zero I ) (fq6_assign_zero I ). Proof. intros; unfold fq6_assign_zero. tra. Qed.
Hint Extern 0 (SR _ (fq6_assign_zero _) (fq6_assign_zero _)) => (eapply sr_fq6_assign_zero; prj) : trdb.
Lemma sr_fq6_assign_one  : SR sf6 (fq6_assign_one I ) (fq6_assign_one I ). Proof. intros; unfold fq6_assign_one. tra. Qed.
Hint Extern 0 (SR _ (fq6_assign_one _) (fq6_assign_one _)) => (eapply sr_fq6_assign_one; prj) : trdb.
Lemma sr_fq6_add a a' b b' : sf6 a a' -> sf6 b b' -> SR sf6 (fq6_add I a b) (fq6_add I a' b'). Proof. intros; unfold fq6_add. tra. Qed.
Hint Extern 0 (SR _ (fq6_add _ _ _) (fq6_add _ _ _)) => (eapply sr_fq6_add; prj) : trdb.
Lemma sr_fq6_mul a a' b b' : sf6 a a' -> sf6 b b' -> SR sf6 (fq6_mul I nonres a b) (fq6_mul I nonres a' b'). Proof. intros; unfold fq6_mul. tra. Qed.
Hint Extern 0 (SR _ (fq6_mul _ _ _ _) (fq6_mul _ _ _ _)) => (eapply sr_fq6_mul; prj) : trdb.
Lemma sr_fq6_sub a a' b b' : sf6 a a' -> sf6 b b' -> SR sf6 (fq6_sub I a b) (fq6_sub I a' b'). Proof. intros; unfold fq6_sub. tra. Qed.
Hint Extern 0 (SR _ (fq6_sub _ _ _) (fq6_sub _ _ _)) => (eapply sr_fq6_sub; prj) : trdb.
Lemma sr_fq6_double a a' : sf6 a a' -> SR sf6 (fq6_double I a) (fq6_double I a'). Proof. intros; unfold fq6_double. tra. Qed.
Hint Extern 0 (SR _ (fq6_double _ _) (fq6_double _ _)) => (eapply sr_fq6_double; prj) : trdb.
Lemma sr_fq6_square a a' : sf6 a a' -> SR sf6 (fq6_square I nonres a) (fq6_square I nonres a'). Proof. intros; unfold fq6_square. tra. Qed.
Hint Extern 0 (SR _ (fq6_square _ _ _) (fq6_square _ _ _)) => (eapply sr_fq6_square; prj) : trdb.
Lemma sr_fq6_neg a a' : sf6 a a' -> SR sf6 (fq6_neg I a) (fq6_neg I a'). Proof. intros; unfold fq6_neg. tra. Qed.
Hint Extern 0 (SR _ (fq6_neg _ _) (fq6_neg _ _)) => (eapply sr_fq6_neg; prj) : trdb.
Lemma sr_fq6_mul_by_1 a a' b1 b1' : sf6 a a' -> sf2 b1 b1' -> SR sf6 (fq6_mul_by_1 I nonres a b1) (fq6_mul_by_1 I nonres a' b1'). Proof. intros; unfold fq6_mul_by_1. tra. Qed.
Hint Extern 0 (SR _ (fq6_mul_by_1 _ _ _ _) (fq6_mul_by_1 _ _ _ _)) => (eapply sr_fq6_mul_by_1; prj) : trdb.
Lemma sr_fq6_mul_by_01 a a' b0 b0' b1 b1' : sf6 a a' -> sf2 b0 b0' -> sf2 b1 b1' -> SR sf6 (fq6_mul_by_01 I nonres a b0 b1) (fq6_mul_by_01 I nonres a' b0' b1'). Proof. intros; unfold fq6_mul_by_01. tra. Qed.
Hint Extern 0 (SR _ (fq6_mul_by_01 _ _ _ _ _) (fq6_mul_by_01 _ _ _ _ _)) => (eapply sr_fq6_mul_by_01; prj) : trdb.
Lemma sr_fq6_unsafe_invert x x' : sf6 x x' -> SR sf6 (fq6_unsafe_invert I nonres x) (fq6_unsafe_invert I nonres x'). Proof. intros; unfold fq6_unsafe_invert. tra. Qed.
Hint Extern 0 (SR _ (fq6_unsafe_invert _ _ _) (fq6_unsafe_invert _ _ _)) => (eapply sr_fq6_unsafe_invert; prj) : trdb.
Lemma sr_fq6_assign_constant c : SR sf6 (fq6_assign_constant I c) (fq6_assign_constant I c). Proof. intros; unfold fq6_assign_constant. tra. Qed.
Hint Extern 0 (SR _ (fq6_assign_constant _ _) (fq6_assign_constant _ _)) => (eapply sr_fq6_assign_constant; prj) : trdb.
Lemma sr_fq6_mul_by_nonresidue a a' : sf6 a a' -> SR sf6 (fq6_mul_by_nonresidue nonres a) (fq6_mul_by_nonresidue nonres a'). Proof. intros; unfold fq6_mul_by_nonresidue. tra. Qed.
Hint Extern 0 (SR _ (fq6_mul_by_nonresidue _ _) (fq6_mul_by_nonresidue _ _)) => (eapply sr_fq6_mul_by_nonresidue; prj) : trdb.
Lemma sr_fq12_reduce x x' : sf12 x x' -> SR sf12 (fq12_reduce I x) (fq12_reduce I x'). Proof. intros; unfold fq12_reduce. tra. Qed.
Hint Extern 0 (SR _ (fq12_reduce _ _) (fq12_reduce _ _)) => (eapply sr_fq12_reduce; prj) : trdb.
Lemma sr_fq12_assert_eq x x' y y' : sf12 x x' -> sf12 y y' -> SR any (fq12_assert_eq I x y) (fq12_assert_eq I x' y'). Proof. intros; unfold fq12_assert_eq. tra. Qed.
Hint Extern 0 (SR _ (fq12_assert_eq _ _ _) (fq12_assert_eq _ _ _)) => (eapply sr_fq12_assert_eq; prj) : trdb.
Lemma sr_fq12_assign_zero  : SR sf12 (fq12_assign_zero I ) (fq12_assign_zero I ). Proof. intros; unfold fq12_assign_zero. tra. Qed.
Hint Extern 0 (SR _ (fq12_assign_zero _) (fq12_assign_zero _)) => (eapply sr_fq12_assign_zero; prj) : trdb.
Lemma sr_fq12_assign_one  : SR sf12 (fq12_assign_one I ) (fq12_assign_one I ). Proof. intros; unfold fq12_assign_one. tra. Qed.
Hint Extern 0 (SR _ (fq12_assign_one _) (fq12_assign_one _)) => (eapply sr_fq12_assign_one; prj) : trdb.
Lemma sr_fq12_assert_one x x' : sf12 x x' -> SR any (fq12_assert_one I x) (fq12_assert_one I x'). Proof. intros; unfold fq12_assert_one. tra. Qed.
Hint Extern 0 (SR _ (fq12_assert_one _ _) (fq12_assert_one _ _)) => (eapply sr_fq12_assert_one; prj) : trdb.
Lemma sr_fq12_add a a' b b' : sf12 a a' -> sf12 b b' -> SR sf12 (fq12_add I a b) (fq12_add I a' b'). Proof. intros; unfold fq12_add. tra. Qed.
Hint Extern 0 (SR _ (fq12_add _ _ _) (fq12_add _ _ _)) => (eapply sr_fq12_add; prj) : trdb.
Lemma sr_fq12_mul a a' b b' : sf12 a a' -> sf12 b b' -> SR sf12 (fq12_mul I nonres a b) (fq12_mul I nonres a' b'). Proof. intros; unfold fq12_mul. tra. Qed.
Hint Extern 0 (SR _ (fq12_mul _ _ _ _) (fq12_mul _ _ _ _)) => (eapply sr_fq12_mul; prj) : trdb.
Lemma sr_fq12_sub a a' b b' : sf12 a a' -> sf12 b b' -> SR sf12 (fq12_sub I a b) (fq12_sub I a' b'). Proof. intros; unfold fq12_sub. tra. Qed.
Hint Extern 0 (SR _ (fq12_sub _ _ _) (fq12_sub _ _ _)) => (eapply sr_fq12_sub; prj) : trdb.
Lemma sr_fq12_double a a' : sf12 a a' -> SR sf12 (fq12_double I a) (fq12_double I a'). Proof. intros; unfold fq12_double. tra. Qed.
Hint Extern 0 (SR _ (fq12_double _ _) (fq12_double _ _)) => (eapply sr_fq12_double; prj) : trdb.
Lemma sr_fq12_square a a' : sf12 a a' -> SR sf12 (fq12_square I nonres a) (fq12_square I nonres a'). Proof. intros; unfold fq12_square. tra. Qed.
Hint Extern 0 (SR _ (fq12_square _ _ _) (fq12_square _ _ _)) => (eapply sr_fq12_square; prj) : trdb.
Lemma sr_fq12_neg a a' : sf12 a a' -> SR sf12 (fq12_neg I a) (fq12_neg I a'). Proof. intros; unfold fq12_neg. tra. Qed.
Hint Extern 0 (SR _ (fq12_neg _ _) (fq12_neg _ _)) => (eapply sr_fq12_neg; prj) : trdb.
Lemma sr_fq12_conjugate x x' : sf12 x x' -> SR sf12 (fq12_conjugate I x) (fq12_conjugate I x'). Proof. intros; unfold fq12_conjugate. tra. Qed.
Hint Extern 0 (SR _ (fq12_conjugate _ _) (fq12_conjugate _ _)) => (eapply sr_fq12_conjugate; prj) : trdb.
Lemma sr_fq12_mul_by_014 x x' c0 c0' c1 c1' c4 c4' : sf12 x x' -> sf2 c0 c0' -> sf2 c1 c1' -> sf2 c4 c4' -> SR sf12 (fq12_mul_by_014 I nonres x c0 c1 c4) (fq12_mul_by_014 I nonres x' c0' c1' c4'). Proof. intros; unfold fq12_mul_by_014. tra. Qed.
Hint Extern 0 (SR _ (fq12_mul_by_014 _ _ _ _ _ _) (fq12_mul_by_014 _ _ _ _ _ _)) => (eapply sr_fq12_mul_by_014; prj) : trdb.
Lemma sr_fq12_mul_by_034 x x' c0 c0' c3 c3' c4 c4' : sf12 x x' -> sf2 c0 c0' -> sf2 c3 c3' -> sf2 c4 c4' -> SR sf12 (fq12_mul_by_034 I nonres x c0 c3 c4) (fq12_mul_by_034 I nonres x' c0' c3' c4'). Proof. intros; unfold fq12_mul_by_034. tra. Qed.
Hint Extern 0 (SR _ (fq12_mul_by_034 _ _ _ _ _ _) (fq12_mul_by_034 _ _ _ _ _ _)) => (eapply sr_fq12_mul_by_034; prj) : trdb.
Lemma sr_fp4_square a0 a0' a1 a1' : sf2 a0 a0' -> sf2 a1 a1' -> SR (both sf2 sf2) (fp4_square I nonres a0 a1) (fp4_square I nonres a0' a1'). Proof. intros; unfold fp4_square. tra. Qed.
Hint Extern 0 (SR _ (fp4_square _ _ _ _) (fp4_square _ _ _ _)) => (eapply sr_fp4_square; prj) : trdb.
Lemma sr_fq12_cyclotomic_square x x' : sf12 x x' -> SR sf12 (fq12_cyclotomic_square I nonres x) (fq12_cyclotomic_square I nonres x'). Proof. intros; unfold fq12_cyclotomic_square. tra. Qed.
Hint Extern 0 (SR _ (fq12_cyclotomic_square _ _ _) (fq12_cyclotomic_square _ _ _)) => (eapply sr_fq12_cyclotomic_square; prj) : trdb.
Lemma sr_fq12_unsafe_invert x x' : sf12 x x' -> SR sf12 (fq12_unsafe_invert I nonres x) (fq12_unsafe_invert I nonres x'). Proof. intros; unfold fq12_unsafe_invert. tra. Qed.
Hint Extern 0 (SR _ (fq12_unsafe_invert _ _ _) (fq12_unsafe_invert _ _ _)) => (eapply sr_fq12_unsafe_invert; prj) : trdb.
Lemma sr_fq12_assign_constant c : SR sf12 (fq12_assign_constant I c) (fq12_assign_constant I c). Proof. intros; unfold fq12_assign_constant. tra. Qed.
Hint Extern 0 (SR _ (fq12_assign_constant _ _) (fq12_assign_constant _ _)) => (eapply sr_fq12_assign_constant; prj) : trdb.
End Tower.
#[export] Hint Extern 0 (SR _ (fq2_reduce _ _) (fq2_reduce _ _)) => (eapply sr_fq2_reduce; prj) : trdb.
#[export] Hint Extern 0 (SR _ (fq2_assert_equal _ _ _) (fq2_assert_equal _ _ _)) => (eapply sr_fq2_assert_equal; prj) : trdb.
#[export] Hint Extern 0 (SR _ (fq2_assign_zero _) (fq2_assign_zero _)) => (eapply sr_fq2_assign_zero; prj) : trdb.
#[export] Hint Extern 0 (SR _ (fq2_assign_one _) (fq2_assign_one _)) => (eapply sr_fq2_assign_one; prj) : trdb.
#[export] Hint Extern 0 (SR _ (fq2_assign_constant _ _) (fq2_assign_constant _ _)) => (eapply sr_fq2_assign_constant; prj) : trdb.
#[export] Hint Extern 0 (SR _ (fq2_add _ _ _) (fq2_add _ _ _)) => (eapply sr_fq2_add; prj) : trdb.
#[export] Hint Extern 0 (SR _ (fq2_mul _ _ _) (fq2_mul _ _ _)) => (eapply sr_fq2_mul; prj) : trdb.
#[export] Hint Extern 0 (SR _ (fq2_sub _ _ _) (fq2_sub _ _ _)) => (eapply sr_fq2_sub; prj) : trdb.
#[export] Hint Extern 0 (SR _ (fq2_double _ _) (fq2_double _ _)) => (eapply sr_fq2_double; prj) : trdb.
#[export] Hint Extern 0 (SR _ (fq2_square _ _) (fq2_square _ _)) => (eapply sr_fq2_square; prj) : trdb.
#[export] Hint Extern 0 (SR _ (fq2_neg _ _) (fq2_neg _ _)) => (eapply sr_fq2_neg; prj) : trdb.
#[export] Hint Extern 0 (SR _ (fq2_conjugate _ _) (fq2_conjugate _ _)) => (eapply sr_fq2_conjugate; prj) : trdb.
#[export] Hint Extern 0 (SR _ (fq2_unsafe_invert _ _) (fq2_unsafe_invert _ _)) => (eapply sr_fq2_unsafe_invert; prj) : trdb.
#[export] Hint Extern 0 (SR _ (fq6_reduce _ _) (fq6_reduce _ _)) => (eapply sr_fq6_reduce; prj) : trdb.
#[export] Hint Extern 0 (SR _ (fq6_assert_equal _ _ _) (fq6_assert_equal _ _ _)) => (eapply sr_fq6_assert_equal; prj) : trdb.
#[export] Hint Extern 0 (SR _ (fq6_assign_zero _) (fq6_assign_zero _)) => (eapply sr_fq6_assign_zero; prj) : trdb.
#[export] Hint Extern 0 (SR _ (fq6_assign_one _) (fq6_assign_one _)) => (eapply sr_fq6_assign_one; prj) : trdb.
#[export] Hint Extern 0 (SR _ (fq6_add _ _ _) (fq6_add _ _ _)) => (eapply sr_fq6_add; prj) : trdb.
#[export] Hint Extern 0 (SR _ (fq6_sub _ _ _) (fq6_sub _ _ _)) => (eapply sr_fq6_sub; prj) : trdb.
#[export] Hint Extern 0 (SR _ (fq6_double _ _) (fq6_double _ _)) => (eapply sr_fq6_double; prj) : trdb.
#[export] Hint Extern 0 (SR _ (fq6_neg _ _) (fq6_neg _ _)) => (eapply sr_fq6_neg; prj) : trdb.
#[export] Hint Extern 0 (SR _ (fq6_assign_constant _ _) (fq6_assign_constant _ _)) => (eapply sr_fq6_assign_constant; prj) : trdb.
#[export] Hint Extern 0 (SR _ (fq12_reduce _ _) (fq12_reduce _ _)) => (eapply sr_fq12_reduce; prj) : trdb.
#[export] Hint Extern 0 (SR _ (fq12_assert_eq _ _ _) (fq12_assert_eq _ _ _)) => (eapply sr_fq12_assert_eq; prj) : trdb.
#[export] Hint Extern 0 (SR _ (fq12_assign_zero _) (fq12_assign_zero _)) => (eapply sr_fq12_assign_zero; prj) : trdb.
#[export] Hint Extern 0 (SR _ (fq12_assign_one _) (fq12_assign_one _)) => (eapply sr_fq12_assign_one; prj) : trdb.
#[export] Hint Extern 0 (SR _ (fq12_assert_one _ _) (fq12_assert_one _ _)) => (eapply sr_fq12_assert_one; prj) : trdb.
#[export] Hint Extern 0 (SR _ (fq12_add _ _ _) (fq12_add _ _ _)) => (eapply sr_fq12_add; prj) : trdb.
#[export] Hint Extern 0 (SR _ (fq12_sub _ _ _) (fq12_sub _ _ _)) => (eapply sr_fq12_sub; prj) : trdb.
#[export] Hint Extern 0 (SR _ (fq12_double _ _) (fq12_double _ _)) => (eapply sr_fq12_double; prj) : trdb.
#[export] Hint Extern 0 (SR _ (fq12_neg _ _) (fq12_neg _ _)) => (eapply sr_fq12_neg; prj) : trdb.
#[export] Hint Extern 0 (SR _ (fq12_conjugate _ _) (fq12_conjugate _ _)) => (eapply sr_fq12_conjugate; prj) : trdb.
#[export] Hint Extern 0 (SR _ (fq12_assign_constant _ _) (fq12_assign_constant _ _)) => (eapply sr_fq12_assign_constant; prj) : trdb.
Notation spairs := (both sf12 (Forall2 (both spt (Forall2 scoeff)))).
Section Pairing.
Context {NM : NMod}.
Variable I : rinfo.
Lemma sr_ell_all ell st st' : (forall f f' k k' p p', sf12 f f' -> scoeff k k' -> spt p p' -> SR sf12 (ell f k p) (ell f' k' p')) -> spairs st st' -> SR spairs (ell_all ell st) (ell_all ell st').
Proof.
  intros He [Hs Hp]. unfold ell_all. eapply (SR_bind (both sf12 (Forall2 (both spt (Forall2 scoeff))))).
  - eapply (SR_foldM (both spt (Forall2 scoeff)) spairs); [exact Hp| |split; [exact Hs|constructor]].
    intros s t x y [Hs1 Hs2] [Hx1 Hx2]. destruct x as [xp xl], y as [yp yl]; cbn [fst snd] in *. destruct Hx2 as [|k k' ks ks' Hk Hks]; [apply SR_panic_l|]. cbn [hd_error tl mopt].
    eapply SR_bind; [apply (SR_ret scoeff); exact Hk|]. intros q q' Hq. eapply SR_bind; [apply He; eassumption|]. intros f f' Hf. apply SR_ret. split; [exact Hf|]. constructor; [split; assumption|exact Hs2].
  - intros s t [H1 H2]. apply SR_ret. split; [exact H1|]. apply F2_rev. exact H2.
Qed.
Lemma sr_doubling_step pt pt' : sg2 pt pt' -> SR (both sg2 scoeff) (doubling_step I pt) (doubling_step I pt').
Proof. intros; unfold doubling_step. tra. Qed.
Hint Extern 0 (SR _ (doubling_step _ _) (doubling_step _ _)) => (eapply sr_doubling_step; prj) : trdb.
Lemma sr_addition_step pt pt' pq pq' : sg2 pt pt' -> sg2a pq pq' -> SR (both sg2 scoeff) (addition_step I pt pq) (addition_step I pt' pq').
Proof. intros; unfold addition_step. tra. Qed.
Hint Extern 0 (SR _ (addition_step _ _ _) (addition_step _ _ _)) => (eapply sr_addition_step; prj) : trdb.
Lemma sr_g2affine_to_g2 g g' : sg2a g g' -> SR sg2 (g2affine_to_g2 I g) (g2affine_to_g2 I g').
Proof. intros; unfold g2affine_to_g2. tra. Qed.
Hint Extern 0 (SR _ (g2affine_to_g2 _ _) (g2affine_to_g2 _ _)) => (eapply sr_g2affine_to_g2; prj) : trdb.
Lemma sr_g2_neg g g' : sg2a g g' -> SR sg2a (g2_neg I g) (g2_neg I g').
Proof. intros; unfold g2_neg. tra. Qed.
Hint Extern 0 (SR _ (g2_neg _ _) (g2_neg _ _)) => (eapply sr_g2_neg; prj) : trdb.
Lemma sr_bn_nonres a a' : sf2 a a' -> SR sf2 (bn_nonres I a) (bn_nonres I a').
Proof. intros; unfold bn_nonres. tra. Qed.
Hint Extern 0 (SR _ (bn_nonres _ _) (bn_nonres _ _)) => (eapply sr_bn_nonres; prj) : trdb.
Lemma sr_bn_fq6_mul a a' b b' : sf6 a a' -> sf6 b b' -> SR sf6 (fq6_mul I (bn_nonres I) a b) (fq6_mul I (bn_nonres I) a' b'). Proof. intros; apply sr_fq6_mul; try assumption. exact sr_bn_nonres. Qed.
Hint Extern 0 (SR _ (fq6_mul I (bn_nonres _) _ _) (fq6_mul I (bn_nonres _) _ _)) => (eapply sr_bn_fq6_mul; prj) : trdb.
Lemma sr_bn_fq6_square a a' : sf6 a a' -> SR sf6 (fq6_square I (bn_nonres I) a) (fq6_square I (bn_nonres I) a'). Proof. intros; apply sr_fq6_square; try assumption. exact sr_bn_nonres. Qed.
Hint Extern 0 (SR _ (fq6_square I (bn_nonres _) _) (fq6_square I (bn_nonres _) _)) => (eapply sr_bn_fq6_square; prj) : trdb.
Lemma sr_bn_fq6_mul_by_1 a a' b1 b1' : sf6 a a' -> sf2 b1 b1' -> SR sf6 (fq6_mul_by_1 I (bn_nonres I) a b1) (fq6_mul_by_1 I (bn_nonres I) a' b1'). Proof. intros; apply sr_fq6_mul_by_1; try assumption. exact sr_bn_nonres. Qed.
Hint Extern 0 (SR _ (fq6_mul_by_1 I (bn_nonres _) _ _) (fq6_mul_by_1 I (bn_nonres _) _ _)) => (eapply sr_bn_fq6_mul_by_1; prj) : trdb.
Lemma sr_bn_fq6_mul_by_01 a a' b0 b0' b1 b1' : sf6 a a' -> sf2 b0 b0' -> sf2 b1 b1' -> SR sf6 (fq6_mul_by_01 I (bn_nonres I) a b0 b1) (fq6_mul_by_01 I (bn_nonres I) a' b0' b1'). Proof. intros; apply sr_fq6_mul_by_01; try assumption. exact sr_bn_nonres. Qed.
Hint Extern 0 (SR _ (fq6_mul_by_01 I (bn_nonres _) _ _ _) (fq6_mul_by_01 I (bn_nonres _) _ _ _)) => (eapply sr_bn_fq6_mul_by_01; prj) : trdb.
Lemma sr_bn_fq6_unsafe_invert x x' : sf6 x x' -> SR sf6 (fq6_unsafe_invert I (bn_nonres I) x) (fq6_unsafe_invert I (bn_nonres I) x'). Proof. intros; apply sr_fq6_unsafe_invert; try assumption. exact sr_bn_nonres. Qed.
Hint Extern 0 (SR _ (fq6_unsafe_invert I (bn_nonres _) _) (fq6_unsafe_invert I (bn_nonres _) _)) => (eapply sr_bn_fq6_unsafe_invert; prj) : trdb.
Lemma sr_bn_fq6_mul_by_nonresidue a a' : sf6 a a' -> SR sf6 (fq6_mul_by_nonresidue (bn_nonres I) a) (fq6_mul_by_nonresidue (bn_nonres I) a'). Proof. intros; apply sr_fq6_mul_by_nonresidue; try assumption. exact sr_bn_nonres. Qed.
Hint Extern 0 (SR _ (fq6_mul_by_nonresidue (bn_nonres _) _) (fq6_mul_by_nonresidue (bn_nonres _) _)) => (eapply sr_bn_fq6_mul_by_nonresidue; prj) : trdb.
Lemma sr_bn_fq12_mul a a' b b' : sf12 a a' -> sf12 b b' -> SR sf12 (fq12_mul I (bn_nonres I) a b) (fq12_mul I (bn_nonres I) a' b'). Proof. intros; apply sr_fq12_mul; try assumption. exact sr_bn_nonres. Qed.
Hint Extern 0 (SR _ (fq12_mul I (bn_nonres _) _ _) (fq12_mul I (bn_nonres _) _ _)) => (eapply sr_bn_fq12_mul; prj) : trdb.
Lemma sr_bn_fq12_square a a' : sf12 a a' -> SR sf12 (fq12_square I (bn_nonres I) a) (fq12_square I (bn_nonres I) a'). Proof. intros; apply sr_fq12_square; try assumption. exact sr_bn_nonres. Qed.
Hint Extern 0 (SR _ (fq12_square I (bn_nonres _) _) (fq12_square I (bn_nonres _) _)) => (eapply sr_bn_fq12_square; prj) : trdb.
Lemma sr_bn_fq12_mul_by_014 x x' c0 c0' c1 c1' c4 c4' : sf12 x x' -> sf2 c0 c0' -> sf2 c1 c1' -> sf2 c4 c4' -> SR sf12 (fq12_mul_by_014 I (bn_nonres I) x c0 c1 c4) (fq12_mul_by_014 I (bn_nonres I) x' c0' c1' c4'). Proof. intros; apply sr_fq12_mul_by_014; try assumption. exact sr_bn_nonres. Qed.
Hint Extern 0 (SR _ (fq12_mul_by_014 I (bn_nonres _) _ _ _ _) (fq12_mul_by_014 I (bn_nonres _) _ _ _ _)) => (eapply sr_bn_fq12_mul_by_014; prj) : trdb.
Lemma sr_bn_fq12_mul_by_034 x x' c0 c0' c3 c3' c4 c4' : sf12 x x' -> sf2 c0 c0' -> sf2 c3 c3' -> sf2 c4 c4' -> SR sf12 (fq12_mul_by_034 I (bn_nonres I) x c0 c3 c4) (fq12_mul_by_034 I (bn_nonres I) x' c0' c3' c4'). Proof. intros; apply sr_fq12_mul_by_034; try assumption. exact sr_bn_nonres. Qed.
Hint Extern 0 (SR _ (fq12_mul_by_034 I (bn_nonres _) _ _ _ _) (fq12_mul_by_034 I (bn_nonres _) _ _ _ _)) => (eapply sr_bn_fq12_mul_by_034; prj) : trdb.
Lemma sr_bn_fp4_square a0 a0' a1 a1' : sf2 a0 a0' -> sf2 a1 a1' -> SR (both sf2 sf2) (fp4_square I (bn_nonres I) a0 a1) (fp4_square I (bn_nonres I) a0' a1'). Proof. intros; apply sr_fp4_square; try assumption. exact sr_bn_nonres. Qed.
Hint Extern 0 (SR _ (fp4_square I (bn_nonres _) _ _) (fp4_square I (bn_nonres _) _ _)) => (eapply sr_bn_fp4_square; prj) : trdb.
Lemma sr_bn_fq12_cyclotomic_square x x' : sf12 x x' -> SR sf12 (fq12_cyclotomic_square I (bn_nonres I) x) (fq12_cyclotomic_square I (bn_nonres I) x'). Proof. intros; apply sr_fq12_cyclotomic_square; try assumption. exact sr_bn_nonres. Qed.
Hint Extern 0 (SR _ (fq12_cyclotomic_square I (bn_nonres _) _) (fq12_cyclotomic_square I (bn_nonres _) _)) => (eapply sr_bn_fq12_cyclotomic_square; prj) : trdb.
Lemma sr_bn_fq12_unsafe_invert x x' : sf12 x x' -> SR sf12 (fq12_unsafe_invert I (bn_nonres I) x) (fq12_unsafe_invert I (bn_nonres I) x'). Proof. intros; apply sr_fq12_unsafe_invert; try assumption. exact sr_bn_nonres. Qed.
Hint Extern 0 (SR _ (fq12_unsafe_invert I (bn_nonres _) _) (fq12_unsafe_invert I (bn_nonres _) _)) => (eapply sr_bn_fq12_unsafe_invert; prj) : trdb.
Lemma sr_bn_fq2_frobenius_map x x' power : sf2 x x' -> SR sf2 (bn_fq2_frobenius_map I x power) (bn_fq2_frobenius_map I x' power).
Proof. intros; unfold bn_fq2_frobenius_map. tra. Qed.
Hint Extern 0 (SR _ (bn_fq2_frobenius_map _ _ _) (bn_fq2_frobenius_map _ _ _)) => (eapply sr_bn_fq2_frobenius_map; prj) : trdb.
Lemma sr_bn_fq6_frobenius_map x x' power : sf6 x x' -> SR sf6 (bn_fq6_frobenius_map I x power) (bn_fq6_frobenius_map I x' power).
Proof. intros; unfold bn_fq6_frobenius_map. tra. Qed.
Hint Extern 0 (SR _ (bn_fq6_frobenius_map _ _ _) (bn_fq6_frobenius_map _ _ _)) => (eapply sr_bn_fq6_frobenius_map; prj) : trdb.
Lemma sr_bn_fq12_frobenius_map x x' power : sf12 x x' -> SR sf12 (bn_fq12_frobenius_map I x power) (bn_fq12_frobenius_map I x' power).
Proof. intros; unfold bn_fq12_frobenius_map. tra. Qed.
Hint Extern 0 (SR _ (bn_fq12_frobenius_map _ _ _) (bn_fq12_frobenius_map _ _ _)) => (eapply sr_bn_fq12_frobenius_map; prj) : trdb.
Lemma sr_bn_prepare_loop g2 g2' neg_g2 neg_g2' r r' : sg2a g2 g2' -> sg2a neg_g2 neg_g2' -> sg2 r r' -> SR (both sg2 (Forall2 scoeff)) (bn_prepare_loop I g2 neg_g2 r) (bn_prepare_loop I g2' neg_g2' r').
Proof. intros H1 H2 H3. unfold bn_prepare_loop. apply (SR_foldM_eq (both sg2 (Forall2 scoeff))); [split; [exact H3|constructor]|].
  intros s t i [Hs Hc]. eapply SR_bind; [apply sr_doubling_step; exact Hs|]. intros d d' [Hd Hk]. cbv zeta.
  assert (Hcc : Forall2 scoeff (snd s ++ [snd d]) (snd t ++ [snd d'])) by (apply Forall2_app; [exact Hc|repeat constructor; apply Hk]).
  destruct (_ =? 1); [|destruct (_ =? -1)].
  - eapply SR_bind; [apply sr_addition_step; eassumption|]. intros x y [Hx Hy]. apply SR_ret. split; [exact Hx|]. apply Forall2_app; [exact Hcc|repeat constructor; apply Hy].
  - eapply SR_bind; [apply sr_addition_step; eassumption|]. intros x y [Hx Hy]. apply SR_ret. split; [exact Hx|]. apply Forall2_app; [exact Hcc|repeat constructor; apply Hy].
  - apply SR_ret. split; [exact Hd|exact Hcc]. Qed.
Hint Extern 0 (SR _ (bn_prepare_loop _ _ _ _) (bn_prepare_loop _ _ _ _)) => (eapply sr_bn_prepare_loop; prj) : trdb.
Lemma sr_bn_prepare_g2 g2 g2' : sg2a g2 g2' -> SR (Forall2 scoeff) (bn_prepare_g2 I g2) (bn_prepare_g2 I g2').
Proof. intros; unfold bn_prepare_g2. tra. Qed.
Hint Extern 0 (SR _ (bn_prepare_g2 _ _) (bn_prepare_g2 _ _)) => (eapply sr_bn_prepare_g2; prj) : trdb.
Lemma sr_bn_ell f f' k k' p p' : sf12 f f' -> scoeff k k' -> spt p p' -> SR sf12 (bn_ell I f k p) (bn_ell I f' k' p').
Proof. intros; unfold bn_ell. tra. Qed.
Hint Extern 0 (SR _ (bn_ell _ _ _ _) (bn_ell _ _ _ _)) => (eapply sr_bn_ell; prj) : trdb.
Lemma sr_bn_multi_miller_loop terms terms' : Forall2 (both spt (Forall2 scoeff)) terms terms' -> SR sf12 (bn_multi_miller_loop I terms) (bn_multi_miller_loop I terms').
Proof. intros H. unfold bn_multi_miller_loop.
  eapply SR_bind; [eapply SR_mapM; [exact H|]; intros x y [Hp _]; apply sr_assert_false; apply Hp|]. intros _ _ _.
  eapply SR_bind; [apply sr_fq12_assign_one|]. intros one one' H1. eapply (SR_bind spairs).
  - apply (SR_foldM_eq spairs); [split; assumption|]. intros s t i [Hs Hc]. eapply (SR_bind sf12).
    + destruct (negb _); [apply sr_bn_fq12_square; exact Hs|apply SR_ret; exact Hs].
    + intros f f' Hf. eapply SR_bind; [apply (sr_ell_all (bn_ell I)); [exact sr_bn_ell|split; [exact Hf|exact Hc]]|]. intros x y Hx. cbv zeta.
      destruct (_ =? 1); [apply (sr_ell_all (bn_ell I)); [exact sr_bn_ell|exact Hx]|]. destruct (_ =? -1); [apply (sr_ell_all (bn_ell I)); [exact sr_bn_ell|exact Hx]|]. apply SR_ret. exact Hx.
  - intros s t Hs. eapply SR_bind; [apply (sr_ell_all (bn_ell I)); [exact sr_bn_ell|exact Hs]|]. intros x y Hx.
    eapply SR_bind; [apply (sr_ell_all (bn_ell I)); [exact sr_bn_ell|exact Hx]|]. intros x' y' [Hx' Hy'].
    eapply SR_bind; [eapply SR_mapM; [exact Hy'|]; intros; apply SR_assert|]. intros. apply SR_ret. exact Hx'. Qed.
Hint Extern 0 (SR _ (bn_multi_miller_loop _ _) (bn_multi_miller_loop _ _)) => (eapply sr_bn_multi_miller_loop; prj) : trdb.
Lemma sr_bn_exp_by_x f f' : sf12 f f' -> SR sf12 (bn_exp_by_x I f) (bn_exp_by_x I f').
Proof. intros H. unfold bn_exp_by_x. eapply SR_bind; [apply sr_fq12_assign_one|]. intros one one' H1. apply (SR_foldM_eq sf12); [exact H1|].
  intros s t i Hs. eapply SR_bind; [apply sr_bn_fq12_cyclotomic_square; exact Hs|]. intros x y Hx. destruct (Z.testbit _ _); [apply sr_bn_fq12_mul; assumption|apply SR_ret; exact Hx]. Qed.
Hint Extern 0 (SR _ (bn_exp_by_x _ _) (bn_exp_by_x _ _)) => (eapply sr_bn_exp_by_x; prj) : trdb.
Lemma sr_bn_final_exponentiation f f' : sf12 f f' -> SR sf12 (bn_final_exponentiation I f) (bn_final_exponentiation I f').
Proof. intros; unfold bn_final_exponentiation. tra. Qed.
Hint Extern 0 (SR _ (bn_final_exponentiation _ _) (bn_final_exponentiation _ _)) => (eapply sr_bn_final_exponentiation; prj) : trdb.
Lemma sr_bls_nonres a a' : sf2 a a' -> SR sf2 (bls_nonres I a) (bls_nonres I a').
Proof. intros; unfold bls_nonres. tra. Qed.
Hint Extern 0 (SR _ (bls_nonres _ _) (bls_nonres _ _)) => (eapply sr_bls_nonres; prj) : trdb.
Lemma sr_bls_fq6_mul a a' b b' : sf6 a a' -> sf6 b b' -> SR sf6 (fq6_mul I (bls_nonres I) a b) (fq6_mul I (bls_nonres I) a' b'). Proof. intros; apply sr_fq6_mul; try assumption. exact sr_bls_nonres. Qed.
Hint Extern 0 (SR _ (fq6_mul I (bls_nonres _) _ _) (fq6_mul I (bls_nonres _) _ _)) => (eapply sr_bls_fq6_mul; prj) : trdb.
Lemma sr_bls_fq6_square a a' : sf6 a a' -> SR sf6 (fq6_square I (bls_nonres I) a) (fq6_square I (bls_nonres I) a'). Proof. intros; apply sr_fq6_square; try assumption. exact sr_bls_nonres. Qed.
Hint Extern 0 (SR _ (fq6_square I (bls_nonres _) _) (fq6_square I (bls_nonres _) _)) => (eapply sr_bls_fq6_square; prj) : trdb.
Lemma sr_bls_fq6_mul_by_1 a a' b1 b1' : sf6 a a' -> sf2 b1 b1' -> SR sf6 (fq6_mul_by_1 I (bls_nonres I) a b1) (fq6_mul_by_1 I (bls_nonres I) a' b1'). Proof. intros; apply sr_fq6_mul_by_1; try assumption. exact sr_bls_nonres. Qed.
Hint Extern 0 (SR _ (fq6_mul_by_1 I (bls_nonres _) _ _) (fq6_mul_by_1 I (bls_nonres _) _ _)) => (eapply sr_bls_fq6_mul_by_1; prj) : trdb.
Lemma sr_bls_fq6_mul_by_01 a a' b0 b0' b1 b1' : sf6 a a' -> sf2 b0 b0' -> sf2 b1 b1' -> SR sf6 (fq6_mul_by_01 I (bls_nonres I) a b0 b1) (fq6_mul_by_01 I (bls_nonres I) a' b0' b1'). Proof. intros; apply sr_fq6_mul_by_01; try assumption. exact sr_bls_nonres. Qed.
Hint Extern 0 (SR _ (fq6_mul_by_01 I (bls_nonres _) _ _ _) (fq6_mul_by_01 I (bls_nonres _) _ _ _)) => (eapply sr_bls_fq6_mul_by_01; prj) : trdb.
Lemma sr_bls_fq6_unsafe_invert x x' : sf6 x x' -> SR sf6 (fq6_unsafe_invert I (bls_nonres I) x) (fq6_unsafe_invert I (bls_nonres I) x'). Proof. intros; apply sr_fq6_unsafe_invert; try assumption. exact sr_bls_nonres. Qed.
Hint Extern 0 (SR _ (fq6_unsafe_invert I (bls_nonres _) _) (fq6_unsafe_invert I (bls_nonres _) _)) => (eapply sr_bls_fq6_unsafe_invert; prj) : trdb.
Lemma sr_bls_fq6_mul_by_nonresidue a a' : sf6 a a' -> SR sf6 (fq6_mul_by_nonresidue (bls_nonres I) a) (fq6_mul_by_nonresidue (bls_nonres I) a'). Proof. intros; apply sr_fq6_mul_by_nonresidue; try assumption. exact sr_bls_nonres. Qed.
Hint Extern 0 (SR _ (fq6_mul_by_nonresidue (bls_nonres _) _) (fq6_mul_by_nonresidue (bls_nonres _) _)) => (eapply sr_bls_fq6_mul_by_nonresidue; prj) : trdb.
Lemma sr_bls_fq12_mul a a' b b' : sf12 a a' -> sf12 b b' -> SR sf12 (fq12_mul I (bls_nonres I) a b) (fq12_mul I (bls_nonres I) a' b'). Proof. intros; apply sr_fq12_mul; try assumption. exact sr_bls_nonres. Qed.
Hint Extern 0 (SR _ (fq12_mul I (bls_nonres _) _ _) (fq12_mul I (bls_nonres _) _ _)) => (eapply sr_bls_fq12_mul; prj) : trdb.
Lemma sr_bls_fq12_square a a' : sf12 a a' -> SR sf12 (fq12_square I (bls_nonres I) a) (fq12_square I (bls_nonres I) a'). Proof. intros; apply sr_fq12_square; try assumption. exact sr_bls_nonres. Qed.
Hint Extern 0 (SR _ (fq12_square I (bls_nonres _) _) (fq12_square I (bls_nonres _) _)) => (eapply sr_bls_fq12_square; prj) : trdb.
Lemma sr_bls_fq12_mul_by_014 x x' c0 c0' c1 c1' c4 c4' : sf12 x x' -> sf2 c0 c0' -> sf2 c1 c1' -> sf2 c4 c4' -> SR sf12 (fq12_mul_by_014 I (bls_nonres I) x c0 c1 c4) (fq12_mul_by_014 I (bls_nonres I) x' c0' c1' c4'). Proof. intros; apply sr_fq12_mul_by_014; try assumption. exact sr_bls_nonres. Qed.
Hint Extern 0 (SR _ (fq12_mul_by_014 I (bls_nonres _) _ _ _ _) (fq12_mul_by_014 I (bls_nonres _) _ _ _ _)) => (eapply sr_bls_fq12_mul_by_014; prj) : trdb.
Lemma sr_bls_fq12_mul_by_034 x x' c0 c0' c3 c3' c4 c4' : sf12 x x' -> sf2 c0 c0' -> sf2 c3 c3' -> sf2 c4 c4' -> SR sf12 (fq12_mul_by_034 I (bls_nonres I) x c0 c3 c4) (fq12_mul_by_034 I (bls_nonres I) x' c0' c3' c4'). Proof. intros; apply sr_fq12_mul_by_034; try assumption. exact sr_bls_nonres. Qed.
Hint Extern 0 (SR _ (fq12_mul_by_034 I (bls_nonres _) _ _ _ _) (fq12_mul_by_034 I (bls_nonres _) _ _ _ _)) => (eapply sr_bls_fq12_mul_by_034; prj) : trdb.
Lemma sr_bls_fp4_square a0 a0' a1 a1' : sf2 a0 a0' -> sf2 a1 a1' -> SR (both sf2 sf2) (fp4_square I (bls_nonres I) a0 a1) (fp4_square I (bls_nonres I) a0' a1'). Proof. intros; apply sr_fp4_square; try assumption. exact sr_bls_nonres. Qed.
Hint Extern 0 (SR _ (fp4_square I (bls_nonres _) _ _) (fp4_square I (bls_nonres _) _ _)) => (eapply sr_bls_fp4_square; prj) : trdb.
Lemma sr_bls_fq12_cyclotomic_square x x' : sf12 x x' -> SR sf12 (fq12_cyclotomic_square I (bls_nonres I) x) (fq12_cyclotomic_square I (bls_nonres I) x'). Proof. intros; apply sr_fq12_cyclotomic_square; try assumption. exact sr_bls_nonres. Qed.
Hint Extern 0 (SR _ (fq12_cyclotomic_square I (bls_nonres _) _) (fq12_cyclotomic_square I (bls_nonres _) _)) => (eapply sr_bls_fq12_cyclotomic_square; prj) : trdb.
Lemma sr_bls_fq12_unsafe_invert x x' : sf12 x x' -> SR sf12 (fq12_unsafe_invert I (bls_nonres I) x) (fq12_unsafe_invert I (bls_nonres I) x'). Proof. intros; apply sr_fq12_unsafe_invert; try assumption. exact sr_bls_nonres. Qed.
Hint Extern 0 (SR _ (fq12_unsafe_invert I (bls_nonres _) _) (fq12_unsafe_invert I (bls_nonres _) _)) => (eapply sr_bls_fq12_unsafe_invert; prj) : trdb.
Lemma sr_bls_fq2_frobenius_map x x' _power : sf2 x x' -> SR sf2 (bls_fq2_frobenius_map I x _power) (bls_fq2_frobenius_map I x' _power).
Proof. intros; unfold bls_fq2_frobenius_map. tra. Qed.
Hint Extern 0 (SR _ (bls_fq2_frobenius_map _ _ _) (bls_fq2_frobenius_map _ _ _)) => (eapply sr_bls_fq2_frobenius_map; prj) : trdb.
Lemma sr_bls_fq6_frobenius_map x x' power : sf6 x x' -> SR sf6 (bls_fq6_frobenius_map I x power) (bls_fq6_frobenius_map I x' power).
Proof. intros; unfold bls_fq6_frobenius_map. tra. Qed.
Hint Extern 0 (SR _ (bls_fq6_frobenius_map _ _ _) (bls_fq6_frobenius_map _ _ _)) => (eapply sr_bls_fq6_frobenius_map; prj) : trdb.
Lemma sr_bls_fq12_frobenius_map x x' power : sf12 x x' -> SR sf12 (bls_fq12_frobenius_map I x power) (bls_fq12_frobenius_map I x' power).
Proof. intros; unfold bls_fq12_frobenius_map. tra. Qed.
Hint Extern 0 (SR _ (bls_fq12_frobenius_map _ _ _) (bls_fq12_frobenius_map _ _ _)) => (eapply sr_bls_fq12_frobenius_map; prj) : trdb.
Lemma sr_bls_ell f f' k k' p p' : sf12 f f' -> scoeff k k' -> spt p p' -> SR sf12 (bls_ell I f k p) (bls_ell I f' k' p').
Proof. intros; unfold bls_ell. tra. Qed.
Hint Extern 0 (SR _ (bls_ell _ _ _ _) (bls_ell _ _ _ _)) => (eapply sr_bls_ell; prj) : trdb.
Lemma sr_bls_cycolotomic_exp f f' : sf12 f f' -> SR sf12 (bls_cycolotomic_exp I f) (bls_cycolotomic_exp I f').
Proof. intros H. unfold bls_cycolotomic_exp. eapply SR_bind; [apply sr_fq12_assign_one|]. intros one one' H1. eapply (SR_bind (both eq sf12)).
  - apply (SR_foldM_eq (both eq sf12)); [split; [reflexivity|exact H1]|]. intros s t i [Hb Hs]. cbv beta. rewrite Hb. eapply (SR_bind (both eq sf12)).
    + destruct (fst t); [|apply SR_ret; split; [reflexivity|exact Hs]]. eapply SR_bind; [apply sr_bls_fq12_cyclotomic_square; exact Hs|]. intros x y Hx. apply SR_ret. split; [reflexivity|exact Hx].
    + intros x y [Hb' Hx]. destruct i; [|apply SR_ret; split; assumption]. eapply SR_bind; [apply sr_bls_fq12_mul; eassumption|]. intros u v Hu. apply SR_ret. split; [exact Hb'|exact Hu].
  - intros s t [_ Hs]. apply sr_fq12_conjugate. exact Hs. Qed.
Hint Extern 0 (SR _ (bls_cycolotomic_exp _ _) (bls_cycolotomic_exp _ _)) => (eapply sr_bls_cycolotomic_exp; prj) : trdb.
Lemma sr_bls_prepare_g2 g2 g2' : sg2a g2 g2' -> SR (Forall2 scoeff) (bls_prepare_g2 I g2) (bls_prepare_g2 I g2').
Proof. intros H1. unfold bls_prepare_g2. eapply SR_bind; [apply sr_g2affine_to_g2; exact H1|]. intros f f' Hf.
  eapply (SR_bind (both eq (both sg2 (Forall2 scoeff)))).
  - apply (SR_foldM_eq (both eq (both sg2 (Forall2 scoeff)))); [split; [reflexivity|split; [exact Hf|constructor]]|].
    intros s t i [Hb [Hs Hc]]. cbv beta. rewrite Hb. destruct (negb (fst t)); [apply SR_ret; split; [reflexivity|split; assumption]|].
    eapply SR_bind; [apply sr_doubling_step; exact Hs|]. intros d d' [Hd Hk]. cbv zeta.
    assert (Hcc : Forall2 scoeff (snd (snd s) ++ [snd d]) (snd (snd t) ++ [snd d'])) by (apply Forall2_app; [exact Hc|repeat constructor; apply Hk]).
    destruct i; [|apply SR_ret; split; [reflexivity|split; [exact Hd|exact Hcc]]].
    eapply SR_bind; [apply sr_addition_step; eassumption|]. intros x y [Hx Hy]. apply SR_ret. split; [reflexivity|]. split; [exact Hx|]. apply Forall2_app; [exact Hcc|repeat constructor; apply Hy].
  - intros s t [_ [Hs Hc]]. eapply SR_bind; [apply sr_doubling_step; exact Hs|]. intros d d' [Hd Hk]. apply SR_ret. apply Forall2_app; [exact Hc|repeat constructor; apply Hk]. Qed.
Hint Extern 0 (SR _ (bls_prepare_g2 _ _) (bls_prepare_g2 _ _)) => (eapply sr_bls_prepare_g2; prj) : trdb.
Lemma sr_bls_multi_miller_loop terms terms' : Forall2 (both spt (Forall2 scoeff)) terms terms' -> SR sf12 (bls_multi_miller_loop I terms) (bls_multi_miller_loop I terms').
Proof. intros H. unfold bls_multi_miller_loop.
  eapply SR_bind; [eapply SR_mapM; [exact H|]; intros x y [Hp _]; apply sr_assert_false; apply Hp|]. intros _ _ _.
  eapply SR_bind; [apply sr_fq12_assign_one|]. intros one one' H1. eapply (SR_bind (both eq spairs)).
  - apply (SR_foldM_eq (both eq spairs)); [split; [reflexivity|split; assumption]|]. intros [b0 s] [b1 t] i [Hb Hs]. cbn [fst snd] in *. subst b1. destruct (negb b0); [apply SR_ret; split; [reflexivity|exact Hs]|].
    eapply SR_bind; [apply (sr_ell_all (bls_ell I)); [exact sr_bls_ell|exact Hs]|]. intros x y Hx. eapply (SR_bind spairs).
    + destruct i; [apply (sr_ell_all (bls_ell I)); [exact sr_bls_ell|exact Hx]|apply SR_ret; exact Hx].
    + intros r r' [Hr Hc]. eapply SR_bind; [apply sr_bls_fq12_square; exact Hr|]. intros f f' Hf. apply SR_ret. split; [reflexivity|]. split; [exact Hf|exact Hc].
  - intros s t [_ Hs]. eapply SR_bind; [apply (sr_ell_all (bls_ell I)); [exact sr_bls_ell|exact Hs]|]. intros x y [Hx _]. apply sr_fq12_conjugate. exact Hx. Qed.
Hint Extern 0 (SR _ (bls_multi_miller_loop _ _) (bls_multi_miller_loop _ _)) => (eapply sr_bls_multi_miller_loop; prj) : trdb.
Lemma sr_bls_final_exponentiation f f' : sf12 f f' -> SR sf12 (bls_final_exponentiation I f) (bls_final_exponentiation I f').
Proof. intros; unfold bls_final_exponentiation. tra. Qed.
Hint Extern 0 (SR _ (bls_final_exponentiation _ _) (bls_final_exponentiation _ _)) => (eapply sr_bls_final_exponentiation; prj) : trdb.
Lemma sr_bn_pairing terms terms' : Forall2 (both spt sg2a) terms terms' -> SR sf12 (bn_pairing I terms) (bn_pairing I terms').
Proof.
  intros H. unfold bn_pairing, pairing. eapply (SR_bind (Forall2 (both spt (Forall2 scoeff)))).
  - eapply SR_mapM; [exact H|]. intros x y [Hx Hy]. eapply SR_bind; [apply sr_bn_prepare_g2; exact Hy|]. intros q q' Hq. apply SR_ret. split; assumption.
  - intros x y Hx. eapply SR_bind; [apply sr_bn_multi_miller_loop; exact Hx|]. intros f f' Hf. apply sr_bn_final_exponentiation. exact Hf.
Qed.
Hint Extern 0 (SR _ (bn_pairing _ _) (bn_pairing _ _)) => (eapply sr_bn_pairing; prj) : trdb.
Lemma sr_bn_check_pairing terms terms' : Forall2 (both spt sg2a) terms terms' -> SR any (bn_check_pairing I terms) (bn_check_pairing I terms').
Proof. intros; unfold bn_check_pairing. tra. Qed.
Hint Extern 0 (SR _ (bn_check_pairing _ _) (bn_check_pairing _ _)) => (eapply sr_bn_check_pairing; prj) : trdb.
Lemma sr_bls_pairing terms terms' : Forall2 (both spt sg2a) terms terms' -> SR sf12 (bls_pairing I terms) (bls_pairing I terms').
Proof.
  intros H. unfold bls_pairing, pairing. eapply (SR_bind (Forall2 (both spt (Forall2 scoeff)))).
  - eapply SR_mapM; [exact H|]. intros x y [Hx Hy]. eapply SR_bind; [apply sr_bls_prepare_g2; exact Hy|]. intros q q' Hq. apply SR_ret. split; assumption.
  - intros x y Hx. eapply SR_bind; [apply sr_bls_multi_miller_loop; exact Hx|]. intros f f' Hf. apply sr_bls_final_exponentiation. exact Hf.
Qed.
Hint Extern 0 (SR _ (bls_pairing _ _) (bls_pairing _ _)) => (eapply sr_bls_pairing; prj) : trdb.
Lemma sr_bls_check_pairing terms terms' : Forall2 (both spt sg2a) terms terms' -> SR any (bls_check_pairing I terms) (bls_check_pairing I terms').
Proof. intros; unfold bls_check_pairing. tra. Qed.
Hint Extern 0 (SR _ (bls_check_pairing _ _) (bls_check_pairing _ _)) => (eapply sr_bls_check_pairing; prj) : trdb.
End Pairing.
