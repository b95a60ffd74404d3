(** Range rows per base row: every gadget of the integer, point, tower and pairing chips records at most K range rows per base row, where
    K = 3 * limbs + 4.  The lemmas follow those of Progs.v. *)
From Verif Require Import Prelude FieldZ Circuit Context Spec Logic Prims BaseChip RangeInfo RangeChip IntegerChip EccChip
  Moduli PairingConsts Fq12Chip PairingChip PairEnd SpecProg IntProg SpecPointProg PointProg EndToEnd.

Section Ratio.
Context {NM : NMod}.
Variable K : Z.
Hypothesis K_pos : 0 <= K.
Record rstep (e : Z) (c c' : ctx) : Prop := {
  rs_mono : (base_off c <= base_off c')%nat;
  rs_base : (base_off c <= base_h c)%nat -> (base_off c' <= base_h c')%nat;
  rs_range : (range_h c <= range_off c + 1)%nat -> (range_h c' <= range_off c' + 1)%nat;
  rs_rows : Z.of_nat (range_off c') - Z.of_nat (range_off c) <= K * (Z.of_nat (base_off c') - Z.of_nat (base_off c)) + e }.
Definition rte (e : Z) {X} (m : M X) : Prop := forall c x c', m c = Ok (x, c') -> rstep e c c'.
Lemma rstep_trans e f c1 c2 c3 : rstep e c1 c2 -> rstep f c2 c3 -> rstep (e + f) c1 c3.
Proof. intros [A0 A1 A2 A3] [B0 B1 B2 B3]. constructor; auto; lia. Qed.
Lemma rte_wk e f {X} (m : M X) : rte e m -> e <= f -> rte f m.
Proof. intros H L c x c' E. destruct (H _ _ _ E) as [A0 A1 A2 A3]. constructor; auto. lia. Qed.
Lemma rte_bind e f {X Y} (m : M X) (k : X -> M Y) : rte e m -> (forall x, rte f (k x)) -> rte (e + f) (mbind m k).
Proof. intros Hm Hk c y c'' H. apply mbind_inv in H as (x & c' & H1 & H2). eapply rstep_trans; [eapply Hm|eapply Hk]; eauto. Qed.
Lemma rte_ret {X} (x : X) : rte 0 (mret x).
Proof. intros c y c' H. injection H as _ <-. constructor; auto; lia. Qed.
Lemma rte_panic e {X} : rte e (@mpanic X).
Proof. intros c y c' H. discriminate. Qed.
Lemma rte_mapM e {X Y} (f : X -> M Y) l : 0 <= e -> (forall x, rte e (f x)) -> rte (e * Z.of_nat (length l)) (mapM f l).
Proof.
  intros He Hf; induction l as [|x l IH]; cbn [mapM length]; [eapply rte_wk; [apply rte_ret|lia]|].
  eapply rte_wk; [eapply rte_bind; [apply Hf|intros; eapply rte_bind; [apply IH|intros; apply rte_ret]]|]. lia.
Qed.
Definition rt {X} (m : M X) : Prop := rte 0 m.
Lemma rt_ret {X} (x : X) : rt (mret x). Proof. apply rte_ret. Qed.
Lemma rt_panic {X} : rt (@mpanic X). Proof. apply rte_panic. Qed.
Lemma rt_assert b : rt (massert b). Proof. destruct b; [apply rt_ret|apply rt_panic]. Qed.
Lemma rt_opt {X} (o : option X) : rt (mopt o). Proof. destruct o; [apply rt_ret|apply rt_panic]. Qed.
Lemma rt_nth {X} (l : list X) i : rt (mnth l i). Proof. apply rt_opt. Qed.
Lemma rt_bind {X Y} (m : M X) (k : X -> M Y) : rt m -> (forall x, rt (k x)) -> rt (mbind m k).
Proof. intros H1 H2. exact (rte_bind 0 0 m k H1 H2). Qed.
Lemma rt_mapM {X Y} (f : X -> M Y) l : (forall x, rt (f x)) -> rt (mapM f l).
Proof. intros Hf. eapply rte_wk; [apply (rte_mapM 0); [lia|exact Hf]|lia]. Qed.
Lemma rt_foldM {X S} (f : S -> X -> M S) l s : (forall s x, rt (f s x)) -> rt (foldM f s l).
Proof.
  intros Hf; revert s; induction l as [|x l IH]; intros s; simpl; [apply rt_ret|]. apply rt_bind; auto.
Qed.
(** One base row. *)
Lemma rte_one_line pairs constant muls next : rte (- K) (one_line pairs constant muls next).
Proof.
  intros c r c' H. unfold one_line in H.
  apply mbind_inv in H as (c0 & c1 & H1 & H). injection H1 as <- <-.
  apply mbind_inv in H as (u & c1 & H1 & H). apply rec_one_line_run in H1 as (L1 & L2 & ->).
  cbv [mbind incr_base_off mret] in H. injection H as <- <-. constructor; cbn [base_off base_h range_off range_h]; [lia| |auto|lia].
  unfold bump_h. destruct (Nat.leb_spec (base_h c) (base_off c)); lia.
Qed.
Lemma rte_one_line_with_last pairs tail constant muls next : rte (- K) (one_line_with_last pairs tail constant muls next).
Proof.
  intros c r c' H. unfold one_line_with_last, rec_one_line_with_last in H.
  apply mbind_inv in H as (c0 & c1 & H1 & H). injection H1 as <- <-.
  apply mbind_inv in H as (u & c1 & H1 & H). apply mbind_inv in H1 as (u1 & c2 & H2 & H1). apply massert_inv in H2 as [_ ->].
  apply mbind_inv in H1 as (u2 & c3 & H2 & H1). apply rec_one_line_run in H2 as (L1 & L2 & ->).
  cbv [mbind incr_base_off mret push_perms do_writes] in H, H1. injection H1 as <- <-. injection H as <- <-.
  constructor; cbn [base_off base_h range_off range_h]; [lia| |auto|lia].
  unfold bump_h. destruct (Nat.leb_spec (base_h c) (base_off c)); lia.
Qed.
Lemma rt_one_line pairs constant muls next : rt (one_line pairs constant muls next).
Proof. eapply rte_wk; [apply rte_one_line|lia]. Qed.
Lemma rt_one_line_with_last pairs tail constant muls next : rt (one_line_with_last pairs tail constant muls next).
Proof. eapply rte_wk; [apply rte_one_line_with_last|lia]. Qed.
(** Range rows. *)
Ltac inv1 H := apply mbind_inv in H as (? & ? & ?E & H).
Ltac rng := repeat match goal with
  | E : mbind _ _ _ = Ok _ |- _ => apply mbind_inv in E as (? & ? & ? & ?)
  | E : massert _ _ = Ok _ |- _ => apply massert_inv in E as [_ ->]
  | E : mret _ _ = Ok _ |- _ => injection E as ? ?; subst
  | E : mnth ?l ?i ?c = Ok _ |- _ => unfold mnth, mopt in E; destruct (nth_error l i); [injection E as ? ?; subst|discriminate E]
  | E : mpanic _ = Ok _ |- _ => discriminate E
  | E : bump_range_h _ _ = Ok _ |- _ => injection E as ? ?; subst
  | E : add_range_off _ _ = Ok _ |- _ => injection E as ? ?; subst
  | E : do_writes _ _ = Ok _ |- _ => injection E as ? ?; subst
  | E : mget _ = Ok _ |- _ => injection E as ? ?; subst
  end.
Lemma bump_le off h k : (h <= off + 1 -> (k <= 3)%nat -> bump_h (off + k) h <= off + k + 1)%nat.
Proof. unfold bump_h. destruct (Nat.leb_spec h (off + k)); lia. Qed.
Lemma rte_common bn : rte 1 (assign_common bn).
Proof.
  intros c r c' H. unfold assign_common, assign_one_line_range_value in H. cbv zeta in H. rng.
  constructor; cbn [base_off base_h range_off range_h]; [lia|auto| |lia]. intros. apply bump_le; lia.
Qed.
Lemma rte_limb bn k b : rte 3 (assign_limb bn k b).
Proof.
  intros c r c' H. unfold assign_limb, assign_range_value in H. cbv zeta in H. inv1 H. inv1 H. rng.
  destruct (b <=? COMMON_RANGE_BITS); [|destruct (b <? _); [discriminate|destruct (b <=? 4 * _); [|destruct (b <=? 6 * _); [|discriminate]]]];
    unfold assign_one_line_range_value, assign_two_line_range_value, assign_three_line_range_value in *; cbv zeta in *; rng;
    (constructor; cbn [base_off base_h range_off range_h snd]; [lia|auto|intros; apply bump_le; lia|lia]).
Qed.
Create HintDb rta discriminated.
Hint Constants Opaque : rta.
Hint Transparent acond : rta.
Hint Resolve rt_ret rt_panic rt_assert rt_opt rt_nth rt_one_line rt_one_line_with_last : rta.
Ltac rta1 :=
  match goal with
  | |- rt (mbind _ _) => apply rt_bind
  | |- rt (mapM _ _) => apply rt_mapM
  | |- rt (foldM _ _ _) => apply rt_foldM
  | |- rt (if ?b then _ else _) => destruct b
  | |- rt (match ?x with _ => _ end) => destruct x
  end.
Ltac rta := repeat (intros; first [solve [auto 1 with rta nocore] | progress cbv beta zeta | rta1]).

Lemma rt_one_line_add p c : rt (one_line_add p c).
Proof. unfold one_line_add. rta. Qed.
Hint Resolve rt_one_line_add : rta.
Lemma rt_swcol e c : rt (sum_with_constant_in_one_line e c).
Proof. unfold sum_with_constant_in_one_line. rta. Qed.
Hint Resolve rt_swcol : rta.
Lemma rt_swc e c : rt (sum_with_constant e c).
Proof. unfold sum_with_constant. rta. Qed.
Hint Resolve rt_swc : rta.
Lemma rt_add a b : rt (add a b).
Proof. unfold add. rta. Qed.
Lemma rt_add_constant a b : rt (add_constant a b).
Proof. unfold add_constant. rta. Qed.
Lemma rt_sub a b : rt (sub a b).
Proof. unfold sub. rta. Qed.
Lemma rt_mul a b : rt (mul a b).
Proof. unfold mul. rta. Qed.
Lemma rt_mul_add_constant a b c : rt (mul_add_constant a b c).
Proof. unfold mul_add_constant. rta. Qed.
Lemma rt_mul_add a b c d e : rt (mul_add a b c d e).
Proof. unfold mul_add. rta. Qed.
Hint Resolve rt_add rt_add_constant rt_sub rt_mul rt_mul_add_constant
  rt_mul_add : rta.
Lemma rt_mul_add_lines f t ls : rt (mul_add_lines f t ls).
Proof.
  revert f t; induction ls as [|[[[a b] c] cc] ls IH]; intros f t; cbn [mul_add_lines]; rta.
Qed.
Hint Resolve rt_mul_add_lines : rta.
Lemma rt_mawnl ls : rt (mul_add_with_next_line ls).
Proof. unfold mul_add_with_next_line. rta. Qed.
Lemma rt_invert_unsafe a : rt (invert_unsafe a).
Proof. unfold invert_unsafe. rta. Qed.
Lemma rt_invert a : rt (invert a).
Proof. unfold invert. rta. Qed.
Hint Resolve rt_mawnl rt_invert_unsafe rt_invert : rta.
Lemma rt_is_zero a : rt (is_zero a).
Proof. unfold is_zero. rta. Qed.
Lemma rt_div_unsafe a b : rt (div_unsafe a b).
Proof. unfold div_unsafe. rta. Qed.
Lemma rt_assign_constant a : rt (assign_constant a).
Proof. unfold assign_constant. rta. Qed.
Lemma rt_assign a : rt (assign a).
Proof. unfold assign. rta. Qed.
Lemma rt_assign_bit a : rt (assign_bit a).
Proof. unfold assign_bit. rta. Qed.
Lemma rt_assert_equal a b : rt (assert_equal a b).
Proof. unfold assert_equal. rta. Qed.
Lemma rt_assert_constant a b : rt (assert_constant a b).
Proof. unfold assert_constant. rta. Qed.
Lemma rt_assert_bit a : rt (assert_bit a).
Proof. unfold assert_bit. rta. Qed.
Hint Resolve rt_is_zero rt_div_unsafe rt_assign_constant rt_assign
  rt_assign_bit rt_assert_equal rt_assert_constant rt_assert_bit : rta.
Lemma rt_and a b : rt (and_ a b).
Proof. unfold and_. rta. Qed.
Lemma rt_not a : rt (not_ a).
Proof. unfold not_. rta. Qed.
Lemma rt_not_and a b : rt (not_and a b).
Proof. unfold not_and. rta. Qed.
Lemma rt_or a b : rt (or_ a b).
Proof. unfold or_. rta. Qed.
Lemma rt_xor a b : rt (xor_ a b).
Proof. unfold xor_. rta. Qed.
Lemma rt_xnor a b : rt (xnor_ a b).
Proof. unfold xnor_. rta. Qed.
Lemma rt_bisec c a b : rt (bisec c a b).
Proof. unfold bisec. rta. Qed.
Lemma rt_bisec_cond c a b : rt (bisec_cond c a b).
Proof. apply rt_bisec. Qed.
Lemma rt_assert_true a : rt (assert_true a).
Proof. unfold assert_true. rta. Qed.
Lemma rt_assert_false a : rt (assert_false a).
Proof. unfold assert_false. rta. Qed.
Lemma rt_try_assert_false a : rt (try_assert_false a).
Proof. unfold try_assert_false. rta. Qed.


Hint Resolve rt_and rt_not rt_not_and rt_or rt_xor rt_xnor rt_bisec rt_bisec_cond rt_assert_true rt_assert_false rt_try_assert_false : rta.
Variable I : rinfo.
Hypothesis K_ok : 3 * Z.of_nat (ri_limbs I) + 4 <= K.
Lemma rte_swcol e c : rte (- K) (sum_with_constant_in_one_line e c).
Proof. unfold sum_with_constant_in_one_line. eapply rte_wk; [eapply rte_bind; [apply rt_assert|intros]; eapply rte_bind; [apply rt_assert|intros]; eapply rte_bind; [apply rte_one_line_with_last|intros; apply rt_ret]|lia]. Qed.
Lemma rte_native_of l : rte (- K) (native_of I l).
Proof.
  unfold native_of, sum_with_constant. destruct (_ <? _)%nat; [apply rte_swcol|].
  eapply rte_wk; [eapply rte_bind; [apply rte_swcol|intros; apply rt_foldM; rta]|lia].
Qed.
Lemma rt_native_of l : rt (native_of I l).
Proof. eapply rte_wk; [apply rte_native_of|lia]. Qed.
Hint Resolve rt_native_of : rta.
Lemma rt_mul_column a b d p : rt (mul_column I a b d p).
Proof. unfold mul_column. rta. Qed.
Lemma rt_mul_carry u : rt (mul_carry I u).
Proof.
  unfold mul_carry, rt. cbv zeta. eapply rte_wk; [eapply rte_bind; [apply rt_assert|intros]; eapply rte_bind; [apply rte_common|intros]; eapply rte_bind; [apply rte_limb|intros];
    eapply rte_bind; [apply rt_nth|intros]; eapply rte_bind; [apply rt_nth|intros]; eapply rte_bind; [apply rte_one_line_with_last|intros; apply rt_ret]|lia].
Qed.
Hint Resolve rt_mul_column rt_mul_carry : rta.
Lemma rt_mul_limbs a b d rem : rt (mul_equation_on_limbs I a b d rem).
Proof. unfold mul_equation_on_limbs. rta. Qed.
Lemma rt_mul_native a b d rem : rt (mul_equation_on_native I a b d rem).
Proof. unfold mul_equation_on_native. rta. Qed.
Lemma rt_assign_w x : rt (assign_w I x).
Proof.
  unfold assign_w, rt. cbv zeta. eapply rte_wk; [eapply rte_bind; [apply (rte_mapM 3); [lia|intros; apply rte_limb]|intros]; eapply rte_bind; [apply rte_limb|intros];
    eapply rte_bind; [apply rte_native_of|intros; apply rt_ret]|rewrite seq_length; lia].
Qed.
Lemma rt_assign_d x : rt (assign_d I x).
Proof.
  unfold assign_d, rt. cbv zeta. eapply rte_wk; [eapply rte_bind; [apply (rte_mapM 3); [lia|intros; apply rte_limb]|intros]; eapply rte_bind; [apply rte_limb|intros];
    eapply rte_bind; [apply rte_native_of|intros; apply rt_ret]|rewrite seq_length; lia].
Qed.
Hint Resolve rt_mul_limbs rt_mul_native rt_assign_w rt_assign_d : rta.
Lemma rt_reduce_step a d r ad ar l i : rt (reduce_step I a d r ad ar l i).
Proof.
  unfold reduce_step, rt. cbv zeta. eapply rte_wk; [repeat (eapply rte_bind; [first [apply rt_nth|apply rt_assert|apply rte_limb|apply rte_one_line_with_last]|intros]); apply rt_ret|lia].
Qed.
Hint Resolve rt_reduce_step : rta.
Lemma rt_reduce a : rt (reduce I a).
Proof.
  unfold reduce, rt. destruct (_ =? _); [apply rt_ret|]. cbv zeta. eapply rte_wk; [eapply rte_bind; [apply rt_assert|intros]; eapply rte_bind; [apply rt_assign_w|intros];
    eapply rte_bind; [apply rte_common|intros]; eapply rte_bind; [apply rte_one_line_with_last|intros]; eapply rte_bind; [apply rt_foldM; intros; apply rt_reduce_step|intros; apply rt_ret]|lia].
Qed.
Hint Resolve rt_reduce : rta.
Lemma rt_cond_reduce a : rt (conditionally_reduce I a).
Proof. unfold conditionally_reduce. rta. Qed.
Lemma rt_pad_of t : rt (pad_of I t).
Proof. unfold pad_of. rta. Qed.
Hint Resolve rt_cond_reduce rt_pad_of : rta.
Lemma rt_int_add a b : rt (int_add I a b).
Proof. unfold int_add. rta. Qed.
Lemma rt_int_sub a b : rt (int_sub I a b).
Proof. unfold int_sub. rta. Qed.
Lemma rt_int_neg a : rt (int_neg I a).
Proof. unfold int_neg. rta. Qed.
Lemma rt_int_mul a b : rt (int_mul I a b).
Proof. unfold int_mul. rta. Qed.
Lemma rt_is_pure_zero a : rt (is_pure_zero a).
Proof. unfold is_pure_zero. rta. Qed.
Lemma rt_is_pure_w a : rt (is_pure_w_modulus I a).
Proof. unfold is_pure_w_modulus. rta. Qed.
Hint Resolve rt_int_add rt_int_sub rt_int_neg rt_int_mul rt_is_pure_zero
  rt_is_pure_w : rta.
Lemma rt_is_int_zero a : rt (is_int_zero I a).
Proof. unfold is_int_zero. rta. Qed.
Hint Resolve rt_is_int_zero : rta.
Lemma rt_is_int_equal a b : rt (is_int_equal I a b).
Proof. unfold is_int_equal. rta. Qed.
Lemma rt_int_div a b : rt (int_div I a b).
Proof. unfold int_div. rta. Qed.
Lemma rt_assign_int_constant a : rt (assign_int_constant I a).
Proof. unfold assign_int_constant. rta. Qed.
Hint Resolve rt_is_int_equal rt_int_div rt_assign_int_constant : rta.
Lemma rt_int_unsafe_invert a : rt (int_unsafe_invert I a).
Proof. unfold int_unsafe_invert. rta. Qed.
Lemma rt_assert_int_equal a b : rt (assert_int_equal I a b).
Proof. unfold assert_int_equal. rta. Qed.
Lemma rt_int_square a : rt (int_square I a).
Proof. unfold int_square. rta. Qed.
Lemma rt_int_mul_small a k : rt (int_mul_small_constant I a k).
Proof. unfold int_mul_small_constant. rta. Qed.
Lemma rt_bisec_int c a b : rt (bisec_int I c a b).
Proof. unfold bisec_int. rta. Qed.

Hint Resolve rt_int_unsafe_invert rt_assert_int_equal rt_int_square rt_int_mul_small rt_bisec_int : rta.
Ltac ap := intros; repeat first [apply rt_bind; [rta|intros ?] | rta].
Lemma rt_assign_constant_point p : rt (assign_constant_point I p).
Proof. unfold assign_constant_point. ap. Qed.
Lemma rt_curve_sides cb x y : rt (curve_sides I cb x y).
Proof. unfold curve_sides. ap. Qed.
Hint Resolve rt_curve_sides : rta.
Lemma rt_assign_point cb p : rt (assign_point I cb p).
Proof. unfold assign_point. ap. Qed.

Hint Resolve rt_assign_point rt_assign_constant_point rt_curve_sides : rta.
Lemma rt_assign_non_zero_point cb p : rt (assign_non_zero_point I cb p).
Proof. unfold assign_non_zero_point. ap. Qed.
Lemma rt_assign_identity : rt (assign_identity I).
Proof. unfold assign_identity. ap. Qed.
Lemma rt_bisec_point k a b : rt (bisec_point I k a b).
Proof. unfold bisec_point. ap. Qed.
Lemma rt_bisec_curvature k a b : rt (bisec_curvature I k a b).
Proof. unfold bisec_curvature. ap. Qed.
Hint Resolve rt_bisec_point rt_bisec_curvature rt_assign_identity : rta.
Lemma rt_bisec_pointc k a b : rt (bisec_point_with_curvature I k a b).
Proof. unfold bisec_point_with_curvature. ap. Qed.
Lemma rt_lambda_xy l ax ay bx : rt (lambda_xy I l ax ay bx).
Proof. unfold lambda_xy. ap. Qed.
Hint Resolve rt_lambda_xy : rta.
Lemma rt_lambda_to_point l a b : rt (lambda_to_point I l a b).
Proof. unfold lambda_to_point. ap. Qed.
Hint Resolve rt_lambda_to_point : rta.
Lemma rt_ecc_add a b : rt (ecc_add I a b).
Proof. unfold ecc_add. ap. Qed.
Lemma rt_ecc_double ord a : rt (ecc_double I ord a).
Proof. unfold ecc_double. ap. Qed.
Lemma rt_ecc_assert_equal a b : rt (ecc_assert_equal I a b).
Proof. unfold ecc_assert_equal. ap. Qed.
Lemma rt_ecc_neg a : rt (ecc_neg I a).
Proof. unfold ecc_neg. ap. Qed.
Lemma rt_ecc_reduce a : rt (ecc_reduce I a).
Proof. unfold ecc_reduce. ap. Qed.
Lemma rt_curvature_of x y : rt (curvature_of I x y).
Proof. unfold curvature_of. ap. Qed.
Hint Resolve rt_ecc_reduce rt_curvature_of : rta.
Lemma rt_ecc_reduce_with_curvature a : rt (ecc_reduce_with_curvature I a).
Proof. unfold ecc_reduce_with_curvature. ap. Qed.
Lemma rt_to_pointc a : rt (to_point_with_curvature I a).
Proof. unfold to_point_with_curvature. ap. Qed.
Lemma rt_ecc_encode a : rt (ecc_encode I a).
Proof. unfold ecc_encode. ap. Qed.
Lemma rt_lambda_nz l a b : rt (lambda_to_point_non_zero I l a b).
Proof. unfold lambda_to_point_non_zero. ap. Qed.
Hint Resolve rt_lambda_nz : rta.
Lemma rt_ecc_add_unsafe a b : rt (ecc_add_unsafe I a b).
Proof. unfold ecc_add_unsafe. ap. Qed.
Lemma rt_ecc_double_unsafe a : rt (ecc_double_unsafe I a).
Proof. unfold ecc_double_unsafe. ap. Qed.
Lemma rt_ecc_neg_nz a : rt (ecc_neg_non_zero I a).
Proof. unfold ecc_neg_non_zero. ap. Qed.
Lemma rt_ecc_reduce_nz a : rt (ecc_reduce_non_zero I a).
Proof. unfold ecc_reduce_non_zero. ap. Qed.
Lemma rt_ecc_bisec_nz k a b : rt (ecc_bisec_non_zero_point I k a b).
Proof. unfold ecc_bisec_non_zero_point. ap. Qed.
Lemma rt_assert_equal_nz a b : rt (ecc_assert_equal_non_zero I a b).
Proof. unfold ecc_assert_equal_non_zero. ap. Qed.
Lemma rt_downgrade a : rt (ecc_non_zero_point_downgrade a).
Proof. unfold ecc_non_zero_point_downgrade. ap. Qed.
Lemma rt_bisec_to_nz a b : rt (ecc_bisec_to_non_zero_point I a b).
Proof. unfold ecc_bisec_to_non_zero_point. ap. Qed.
Hint Resolve rt_assign_non_zero_point rt_assign_identity rt_bisec_point rt_bisec_curvature rt_bisec_pointc rt_lambda_xy rt_lambda_to_point rt_ecc_add rt_ecc_double rt_ecc_assert_equal rt_ecc_neg rt_ecc_reduce rt_curvature_of rt_ecc_reduce_with_curvature rt_to_pointc rt_ecc_encode rt_lambda_nz rt_ecc_add_unsafe rt_ecc_double_unsafe rt_ecc_neg_nz rt_ecc_reduce_nz rt_ecc_bisec_nz rt_assert_equal_nz rt_downgrade rt_bisec_to_nz : rta.
Section F.
Variable nonres : afq2 -> M afq2.
Hypothesis Hn : forall a, rt (nonres a).
Hint Resolve Hn : rta.
Lemma rt_fq2_reduce x : rt (fq2_reduce I x). Proof. unfold fq2_reduce. rta. Qed.
Hint Resolve rt_fq2_reduce : rta.
Lemma rt_fq2_assert_equal x y : rt (fq2_assert_equal I x y). Proof. unfold fq2_assert_equal. rta. Qed.
Hint Resolve rt_fq2_assert_equal : rta.
Lemma rt_fq2_assign_zero  : rt (fq2_assign_zero I ). Proof. unfold fq2_assign_zero. rta. Qed.
Hint Resolve rt_fq2_assign_zero : rta.
Lemma rt_fq2_assign_one  : rt (fq2_assign_one I ). Proof. unfold fq2_assign_one. rta. Qed.
Hint Resolve rt_fq2_assign_one : rta.
Lemma rt_fq2_assign_constant c : rt (fq2_assign_constant I c). Proof. unfold fq2_assign_constant. rta. Qed.
Hint Resolve rt_fq2_assign_constant : rta.
Lemma rt_fq2_add a b : rt (fq2_add I a b). Proof. unfold fq2_add. rta. Qed.
Hint Resolve rt_fq2_add : rta.
Lemma rt_fq2_mul a b : rt (fq2_mul I a b). Proof. unfold fq2_mul. rta. Qed.
Hint Resolve rt_fq2_mul : rta.
Lemma rt_fq2_sub a b : rt (fq2_sub I a b). Proof. unfold fq2_sub. rta. Qed.
Hint Resolve rt_fq2_sub : rta.
Lemma rt_fq2_double a : rt (fq2_double I a). Proof. unfold fq2_double. rta. Qed.
Hint Resolve rt_fq2_double : rta.
Lemma rt_fq2_square a : rt (fq2_square I a). Proof. unfold fq2_square. rta. Qed.
Hint Resolve rt_fq2_square : rta.
Lemma rt_fq2_neg a : rt (fq2_neg I a). Proof. unfold fq2_neg. rta. Qed.
Hint Resolve rt_fq2_neg : rta.
Lemma rt_fq2_conjugate a : rt (fq2_conjugate I a). Proof. unfold fq2_conjugate. rta. Qed.
Hint Resolve rt_fq2_conjugate : rta.
Lemma rt_fq2_unsafe_invert x : rt (fq2_unsafe_invert I x). Proof. unfold fq2_unsafe_invert. rta. Qed.
Hint Resolve rt_fq2_unsafe_invert : rta.
Lemma rt_fq6_reduce x : rt (fq6_reduce I x). Proof. unfold fq6_reduce. rta. Qed.
Hint Resolve rt_fq6_reduce : rta.
Lemma rt_fq6_assert_equal x y : rt (fq6_assert_equal I x y). Proof. unfold fq6_assert_equal. rta. Qed.
Hint Resolve rt_fq6_assert_equal : rta.
Lemma rt_fq6_assign_zero  : rt (fq6_assign_zero I ). Proof. unfold fq6_assign_zero. rta. Qed.
Hint Resolve rt_fq6_assign_zero : rta.
Lemma rt_fq6_assign_one  : rt (fq6_assign_one I ). Proof. unfold fq6_assign_one. rta. Qed.
Hint Resolve rt_fq6_assign_one : rta.
Lemma rt_fq6_add a b : rt (fq6_add I a b). Proof. unfold fq6_add. rta. Qed.
Hint Resolve rt_fq6_add : rta.
Lemma rt_fq6_mul a b : rt (fq6_mul I nonres a b). Proof. unfold fq6_mul. rta. Qed.
Hint Resolve rt_fq6_mul : rta.
Lemma rt_fq6_sub a b : rt (fq6_sub I a b). Proof. unfold fq6_sub. rta. Qed.
Hint Resolve rt_fq6_sub : rta.
Lemma rt_fq6_double a : rt (fq6_double I a). Proof. unfold fq6_double. rta. Qed.
Hint Resolve rt_fq6_double : rta.
Lemma rt_fq6_square a : rt (fq6_square I nonres a). Proof. unfold fq6_square. rta. Qed.
Hint Resolve rt_fq6_square : rta.
Lemma rt_fq6_neg a : rt (fq6_neg I a). Proof. unfold fq6_neg. rta. Qed.
Hint Resolve rt_fq6_neg : rta.
Lemma rt_fq6_mul_by_1 a b1 : rt (fq6_mul_by_1 I nonres a b1). Proof. unfold fq6_mul_by_1. rta. Qed.
Hint Resolve rt_fq6_mul_by_1 : rta.
Lemma rt_fq6_mul_by_01 a b0 b1 : rt (fq6_mul_by_01 I nonres a b0 b1). Proof. unfold fq6_mul_by_01. rta. Qed.
Hint Resolve rt_fq6_mul_by_01 : rta.
Lemma rt_fq6_unsafe_invert x : rt (fq6_unsafe_invert I nonres x). Proof. unfold fq6_unsafe_invert. rta. Qed.
Hint Resolve rt_fq6_unsafe_invert : rta.
Lemma rt_fq6_assign_constant c : rt (fq6_assign_constant I c). Proof. unfold fq6_assign_constant. rta. Qed.
Hint Resolve rt_fq6_assign_constant : rta.
Lemma rt_fq6_mul_by_nonresidue a : rt (fq6_mul_by_nonresidue nonres a). Proof. unfold fq6_mul_by_nonresidue. rta. Qed.
Hint Resolve rt_fq6_mul_by_nonresidue : rta.
Lemma rt_fq12_reduce x : rt (fq12_reduce I x). Proof. unfold fq12_reduce. rta. Qed.
Hint Resolve rt_fq12_reduce : rta.
Lemma rt_fq12_assert_eq x y : rt (fq12_assert_eq I x y). Proof. unfold fq12_assert_eq. rta. Qed.
Hint Resolve rt_fq12_assert_eq : rta.
Lemma rt_fq12_assign_zero  : rt (fq12_assign_zero I ). Proof. unfold fq12_assign_zero. rta. Qed.
Hint Resolve rt_fq12_assign_zero : rta.
Lemma rt_fq12_assign_one  : rt (fq12_assign_one I ). Proof. unfold fq12_assign_one. rta. Qed.
Hint Resolve rt_fq12_assign_one : rta.
Lemma rt_fq12_assert_one x : rt (fq12_assert_one I x). Proof. unfold fq12_assert_one. rta. Qed.
Hint Resolve rt_fq12_assert_one : rta.
Lemma rt_fq12_add a b : rt (fq12_add I a b). Proof. unfold fq12_add. rta. Qed.
Hint Resolve rt_fq12_add : rta.
Lemma rt_fq12_mul a b : rt (fq12_mul I nonres a b). Proof. unfold fq12_mul. rta. Qed.
Hint Resolve rt_fq12_mul : rta.
Lemma rt_fq12_sub a b : rt (fq12_sub I a b). Proof. unfold fq12_sub. rta. Qed.
Hint Resolve rt_fq12_sub : rta.
Lemma rt_fq12_double a : rt (fq12_double I a). Proof. unfold fq12_double. rta. Qed.
Hint Resolve rt_fq12_double : rta.
Lemma rt_fq12_square a : rt (fq12_square I nonres a). Proof. unfold fq12_square. rta. Qed.
Hint Resolve rt_fq12_square : rta.
Lemma rt_fq12_neg a : rt (fq12_neg I a). Proof. unfold fq12_neg. rta. Qed.
Hint Resolve rt_fq12_neg : rta.
Lemma rt_fq12_conjugate x : rt (fq12_conjugate I x). Proof. unfold fq12_conjugate. rta. Qed.
Hint Resolve rt_fq12_conjugate : rta.
Lemma rt_fq12_mul_by_014 x c0 c1 c4 : rt (fq12_mul_by_014 I nonres x c0 c1 c4). Proof. unfold fq12_mul_by_014. rta. Qed.
Hint Resolve rt_fq12_mul_by_014 : rta.
Lemma rt_fq12_mul_by_034 x c0 c3 c4 : rt (fq12_mul_by_034 I nonres x c0 c3 c4). Proof. unfold fq12_mul_by_034. rta. Qed.
Hint Resolve rt_fq12_mul_by_034 : rta.
Lemma rt_fp4_square a0 a1 : rt (fp4_square I nonres a0 a1). Proof. unfold fp4_square. rta. Qed.
Hint Resolve rt_fp4_square : rta.
Lemma rt_fq12_cyclotomic_square x : rt (fq12_cyclotomic_square I nonres x). Proof. unfold fq12_cyclotomic_square. rta. Qed.
Hint Resolve rt_fq12_cyclotomic_square : rta.
Lemma rt_fq12_unsafe_invert x : rt (fq12_unsafe_invert I nonres x). Proof. unfold fq12_unsafe_invert. rta. Qed.
Hint Resolve rt_fq12_unsafe_invert : rta.
Lemma rt_fq12_assign_constant c : rt (fq12_assign_constant I c). Proof. unfold fq12_assign_constant. rta. Qed.
Hint Resolve rt_fq12_assign_constant : rta.

End F.
Hint Resolve rt_fq2_reduce rt_fq2_assert_equal rt_fq2_assign_zero rt_fq2_assign_one rt_fq2_assign_constant rt_fq2_add rt_fq2_mul rt_fq2_sub rt_fq2_double rt_fq2_square rt_fq2_neg rt_fq2_conjugate rt_fq2_unsafe_invert rt_fq6_reduce rt_fq6_assert_equal rt_fq6_assign_zero rt_fq6_assign_one rt_fq6_add rt_fq6_sub rt_fq6_double rt_fq6_neg rt_fq6_assign_constant rt_fq12_reduce rt_fq12_assert_eq rt_fq12_assign_zero rt_fq12_assign_one rt_fq12_assert_one rt_fq12_add rt_fq12_sub rt_fq12_double rt_fq12_neg rt_fq12_conjugate rt_fq12_assign_constant : rta.

Lemma rt_doubling_step pt : rt (doubling_step I pt). Proof. unfold doubling_step. rta. Qed.
Hint Resolve rt_doubling_step : rta.
Lemma rt_addition_step pt pq : rt (addition_step I pt pq). Proof. unfold addition_step. rta. Qed.
Hint Resolve rt_addition_step : rta.
Lemma rt_g2affine_to_g2 g : rt (g2affine_to_g2 I g). Proof. unfold g2affine_to_g2. rta. Qed.
Hint Resolve rt_g2affine_to_g2 : rta.
Lemma rt_g2_neg g : rt (g2_neg I g). Proof. unfold g2_neg. rta. Qed.
Hint Resolve rt_g2_neg : rta.
Lemma rt_ell_all ell st : (forall f k q, rt (ell f k q)) -> rt (ell_all ell st). Proof. intros He. unfold ell_all. rta. Qed.
Lemma rt_bn_nonres a : rt (bn_nonres I a). Proof. unfold bn_nonres. rta. Qed.
Hint Resolve rt_bn_nonres : rta.
Lemma rt_bn_fq6_mul a b : rt (fq6_mul I (bn_nonres I) a b). Proof. apply rt_fq6_mul. rta. Qed.
Hint Resolve rt_bn_fq6_mul : rta.
Lemma rt_bn_fq6_square a : rt (fq6_square I (bn_nonres I) a). Proof. apply rt_fq6_square. rta. Qed.
Hint Resolve rt_bn_fq6_square : rta.
Lemma rt_bn_fq6_mul_by_1 a b1 : rt (fq6_mul_by_1 I (bn_nonres I) a b1). Proof. apply rt_fq6_mul_by_1. rta. Qed.
Hint Resolve rt_bn_fq6_mul_by_1 : rta.
Lemma rt_bn_fq6_mul_by_01 a b0 b1 : rt (fq6_mul_by_01 I (bn_nonres I) a b0 b1). Proof. apply rt_fq6_mul_by_01. rta. Qed.
Hint Resolve rt_bn_fq6_mul_by_01 : rta.
Lemma rt_bn_fq6_unsafe_invert x : rt (fq6_unsafe_invert I (bn_nonres I) x). Proof. apply rt_fq6_unsafe_invert. rta. Qed.
Hint Resolve rt_bn_fq6_unsafe_invert : rta.
Lemma rt_bn_fq6_mul_by_nonresidue a : rt (fq6_mul_by_nonresidue (bn_nonres I) a). Proof. apply rt_fq6_mul_by_nonresidue. rta. Qed.
Hint Resolve rt_bn_fq6_mul_by_nonresidue : rta.
Lemma rt_bn_fq12_mul a b : rt (fq12_mul I (bn_nonres I) a b). Proof. apply rt_fq12_mul. rta. Qed.
Hint Resolve rt_bn_fq12_mul : rta.
Lemma rt_bn_fq12_square a : rt (fq12_square I (bn_nonres I) a). Proof. apply rt_fq12_square. rta. Qed.
Hint Resolve rt_bn_fq12_square : rta.
Lemma rt_bn_fq12_mul_by_014 x c0 c1 c4 : rt (fq12_mul_by_014 I (bn_nonres I) x c0 c1 c4). Proof. apply rt_fq12_mul_by_014. rta. Qed.
Hint Resolve rt_bn_fq12_mul_by_014 : rta.
Lemma rt_bn_fq12_mul_by_034 x c0 c3 c4 : rt (fq12_mul_by_034 I (bn_nonres I) x c0 c3 c4). Proof. apply rt_fq12_mul_by_034. rta. Qed.
Hint Resolve rt_bn_fq12_mul_by_034 : rta.
Lemma rt_bn_fp4_square a0 a1 : rt (fp4_square I (bn_nonres I) a0 a1). Proof. apply rt_fp4_square. rta. Qed.
Hint Resolve rt_bn_fp4_square : rta.
Lemma rt_bn_fq12_cyclotomic_square x : rt (fq12_cyclotomic_square I (bn_nonres I) x). Proof. apply rt_fq12_cyclotomic_square. rta. Qed.
Hint Resolve rt_bn_fq12_cyclotomic_square : rta.
Lemma rt_bn_fq12_unsafe_invert x : rt (fq12_unsafe_invert I (bn_nonres I) x). Proof. apply rt_fq12_unsafe_invert. rta. Qed.
Hint Resolve rt_bn_fq12_unsafe_invert : rta.
Lemma rt_bn_fq2_frobenius_map x power : rt (bn_fq2_frobenius_map I x power). Proof. unfold bn_fq2_frobenius_map. rta. Qed.
Hint Resolve rt_bn_fq2_frobenius_map : rta.
Lemma rt_bn_fq6_frobenius_map x power : rt (bn_fq6_frobenius_map I x power). Proof. unfold bn_fq6_frobenius_map. rta. Qed.
Hint Resolve rt_bn_fq6_frobenius_map : rta.
Lemma rt_bn_fq12_frobenius_map x power : rt (bn_fq12_frobenius_map I x power). Proof. unfold bn_fq12_frobenius_map. rta. Qed.
Hint Resolve rt_bn_fq12_frobenius_map : rta.
Lemma rt_bn_prepare_loop g2 neg_g2 r : rt (bn_prepare_loop I g2 neg_g2 r). Proof. unfold bn_prepare_loop. rta. Qed.
Hint Resolve rt_bn_prepare_loop : rta.
Lemma rt_bn_prepare_g2 g2 : rt (bn_prepare_g2 I g2). Proof. unfold bn_prepare_g2. rta. Qed.
Hint Resolve rt_bn_prepare_g2 : rta.
Lemma rt_bn_ell f k p : rt (bn_ell I f k p). Proof. unfold bn_ell. rta. Qed.
Hint Resolve rt_bn_ell : rta.
Lemma rt_bn_multi_miller_loop terms : rt (bn_multi_miller_loop I terms). Proof. assert (HE : forall st, rt (ell_all (bn_ell I) st)) by (intros; apply rt_ell_all; rta). unfold bn_multi_miller_loop. rta. Qed.
Hint Resolve rt_bn_multi_miller_loop : rta.
Lemma rt_bn_exp_by_x f : rt (bn_exp_by_x I f). Proof. unfold bn_exp_by_x. rta. Qed.
Hint Resolve rt_bn_exp_by_x : rta.
Lemma rt_bn_final_exponentiation f : rt (bn_final_exponentiation I f). Proof. unfold bn_final_exponentiation. rta. Qed.
Hint Resolve rt_bn_final_exponentiation : rta.
Lemma rt_bls_nonres a : rt (bls_nonres I a). Proof. unfold bls_nonres. rta. Qed.
Hint Resolve rt_bls_nonres : rta.
Lemma rt_bls_fq6_mul a b : rt (fq6_mul I (bls_nonres I) a b). Proof. apply rt_fq6_mul. rta. Qed.
Hint Resolve rt_bls_fq6_mul : rta.
Lemma rt_bls_fq6_square a : rt (fq6_square I (bls_nonres I) a). Proof. apply rt_fq6_square. rta. Qed.
Hint Resolve rt_bls_fq6_square : rta.
Lemma rt_bls_fq6_mul_by_1 a b1 : rt (fq6_mul_by_1 I (bls_nonres I) a b1). Proof. apply rt_fq6_mul_by_1. rta. Qed.
Hint Resolve rt_bls_fq6_mul_by_1 : rta.
Lemma rt_bls_fq6_mul_by_01 a b0 b1 : rt (fq6_mul_by_01 I (bls_nonres I) a b0 b1). Proof. apply rt_fq6_mul_by_01. rta. Qed.
Hint Resolve rt_bls_fq6_mul_by_01 : rta.
Lemma rt_bls_fq6_unsafe_invert x : rt (fq6_unsafe_invert I (bls_nonres I) x). Proof. apply rt_fq6_unsafe_invert. rta. Qed.
Hint Resolve rt_bls_fq6_unsafe_invert : rta.
Lemma rt_bls_fq6_mul_by_nonresidue a : rt (fq6_mul_by_nonresidue (bls_nonres I) a). Proof. apply rt_fq6_mul_by_nonresidue. rta. Qed.
Hint Resolve rt_bls_fq6_mul_by_nonresidue : rta.
Lemma rt_bls_fq12_mul a b : rt (fq12_mul I (bls_nonres I) a b). Proof. apply rt_fq12_mul. rta. Qed.
Hint Resolve rt_bls_fq12_mul : rta.
Lemma rt_bls_fq12_square a : rt (fq12_square I (bls_nonres I) a). Proof. apply rt_fq12_square. rta. Qed.
Hint Resolve rt_bls_fq12_square : rta.
Lemma rt_bls_fq12_mul_by_014 x c0 c1 c4 : rt (fq12_mul_by_014 I (bls_nonres I) x c0 c1 c4). Proof. apply rt_fq12_mul_by_014. rta. Qed.
Hint Resolve rt_bls_fq12_mul_by_014 : rta.
Lemma rt_bls_fq12_mul_by_034 x c0 c3 c4 : rt (fq12_mul_by_034 I (bls_nonres I) x c0 c3 c4). Proof. apply rt_fq12_mul_by_034. rta. Qed.
Hint Resolve rt_bls_fq12_mul_by_034 : rta.
Lemma rt_bls_fp4_square a0 a1 : rt (fp4_square I (bls_nonres I) a0 a1). Proof. apply rt_fp4_square. rta. Qed.
Hint Resolve rt_bls_fp4_square : rta.
Lemma rt_bls_fq12_cyclotomic_square x : rt (fq12_cyclotomic_square I (bls_nonres I) x). Proof. apply rt_fq12_cyclotomic_square. rta. Qed.
Hint Resolve rt_bls_fq12_cyclotomic_square : rta.
Lemma rt_bls_fq12_unsafe_invert x : rt (fq12_unsafe_invert I (bls_nonres I) x). Proof. apply rt_fq12_unsafe_invert. rta. Qed.
Hint Resolve rt_bls_fq12_unsafe_invert : rta.
Lemma rt_bls_fq2_frobenius_map x _power : rt (bls_fq2_frobenius_map I x _power). Proof. unfold bls_fq2_frobenius_map. rta. Qed.
Hint Resolve rt_bls_fq2_frobenius_map : rta.
Lemma rt_bls_fq6_frobenius_map x power : rt (bls_fq6_frobenius_map I x power). Proof. unfold bls_fq6_frobenius_map. rta. Qed.
Hint Resolve rt_bls_fq6_frobenius_map : rta.
Lemma rt_bls_fq12_frobenius_map x power : rt (bls_fq12_frobenius_map I x power). Proof. unfold bls_fq12_frobenius_map. rta. Qed.
Hint Resolve rt_bls_fq12_frobenius_map : rta.
Lemma rt_bls_ell f k p : rt (bls_ell I f k p). Proof. unfold bls_ell. rta. Qed.
Hint Resolve rt_bls_ell : rta.
Lemma rt_bls_cycolotomic_exp f : rt (bls_cycolotomic_exp I f). Proof. unfold bls_cycolotomic_exp. rta. Qed.
Hint Resolve rt_bls_cycolotomic_exp : rta.
Lemma rt_bls_prepare_g2 g2 : rt (bls_prepare_g2 I g2). Proof. unfold bls_prepare_g2. rta. Qed.
Hint Resolve rt_bls_prepare_g2 : rta.
Lemma rt_bls_multi_miller_loop terms : rt (bls_multi_miller_loop I terms). Proof. assert (HE : forall st, rt (ell_all (bls_ell I) st)) by (intros; apply rt_ell_all; rta). unfold bls_multi_miller_loop. rta. Qed.
Hint Resolve rt_bls_multi_miller_loop : rta.
Lemma rt_bls_final_exponentiation f : rt (bls_final_exponentiation I f). Proof. unfold bls_final_exponentiation. rta. Qed.
Hint Resolve rt_bls_final_exponentiation : rta.
Lemma rt_bn_pairing terms : rt (bn_pairing I terms). Proof. unfold bn_pairing, pairing. rta. Qed.
Hint Resolve rt_bn_pairing : rta.
Lemma rt_bn_check_pairing terms : rt (bn_check_pairing I terms). Proof. unfold bn_check_pairing. rta. Qed.
Hint Resolve rt_bn_check_pairing : rta.
Lemma rt_bls_pairing terms : rt (bls_pairing I terms). Proof. unfold bls_pairing, pairing. rta. Qed.
Hint Resolve rt_bls_pairing : rta.
Lemma rt_bls_check_pairing terms : rt (bls_check_pairing I terms). Proof. unfold bls_check_pairing. rta. Qed.
Hint Resolve rt_bls_check_pairing : rta.

Lemma rt_run_op s op : rt (run_op I s op). Proof. unfold run_op. rta. Qed.
Hint Resolve rt_run_op : rta.
Lemma rt_run_ops s prog : rt (run_ops I s prog). Proof. unfold run_ops. rta. Qed.
Hint Resolve rt_run_ops : rta.
Lemma rt_run_prog inputs prog : rt (run_prog I inputs prog). Proof. unfold run_prog. rta. Qed.
Lemma rt_with_curvature r a : rt (with_curvature I r a). Proof. unfold with_curvature. rta. Qed.
Hint Resolve rt_with_curvature : rta.
Lemma rt_run_pop ord bs rs op : rt (run_pop I ord bs rs op). Proof. unfold run_pop. rta. Qed.
Hint Resolve rt_run_pop : rta.
Lemma rt_run_pops ord bs rs prog : rt (run_pops I ord bs rs prog). Proof. unfold run_pops. rta. Qed.
Lemma rt_input_point b p : rt (input_point I b p). Proof. unfold input_point. rta. Qed.
Hint Resolve rt_run_pops rt_input_point : rta.
Lemma rt_point_circuit b ord zs inputs prog : rt (point_circuit I b ord zs inputs prog). Proof. unfold point_circuit. rta. Qed.
Lemma rt_constant_g2 q : rt (constant_g2 I q). Proof. unfold constant_g2. rta. Qed.
Hint Resolve rt_constant_g2 : rta.
Lemma rt_pair_term b t : rt (pair_term I b t). Proof. unfold pair_term. rta. Qed.
Hint Resolve rt_pair_term : rta.
Lemma rt_pairing_circuit b check qs l : (forall t, rt (check t)) -> rt (pairing_circuit I b check qs l).
Proof. intros H. unfold pairing_circuit. rta. Qed.

(** Base rows from below. *)
Definition lb (n : nat) {X} (m : M X) : Prop := forall c x c', m c = Ok (x, c') -> (base_off c + n <= base_off c')%nat.
Lemma lb_rt {X} (m : M X) : rt m -> lb 0 m.
Proof. intros H c x c' E. pose proof (rs_mono _ _ _ (H _ _ _ E)). lia. Qed.
Lemma lb_bind n k {X Y} (m : M X) (f : X -> M Y) : lb n m -> (forall x, lb k (f x)) -> lb (n + k) (mbind m f).
Proof. intros A B c x c' E. apply mbind_inv in E as (y & c1 & E1 & E2). apply A in E1. apply B in E2. lia. Qed.
Lemma lb_wk n k {X} (m : M X) : lb n m -> (k <= n)%nat -> lb k m.
Proof. intros A L c x c' E. apply A in E. lia. Qed.
Lemma lb_one_line pairs constant muls next : lb 1 (one_line pairs constant muls next).
Proof.
  intros c r c' H. unfold one_line in H.
  apply mbind_inv in H as (c0 & c1 & H1 & H). injection H1 as <- <-.
  apply mbind_inv in H as (u & c1 & H1 & H). apply rec_one_line_run in H1 as (L1 & L2 & ->).
  cbv [mbind incr_base_off mret] in H. injection H as <- <-. cbn [base_off]. lia.
Qed.
Lemma lb_one_line_with_last pairs tail constant muls next : lb 1 (one_line_with_last pairs tail constant muls next).
Proof.
  intros c r c' H. unfold one_line_with_last, rec_one_line_with_last in H.
  apply mbind_inv in H as (c0 & c1 & H1 & H). injection H1 as <- <-.
  apply mbind_inv in H as (u & c1 & H1 & H). apply mbind_inv in H1 as (u1 & c2 & H2 & H1). apply massert_inv in H2 as [_ ->].
  apply mbind_inv in H1 as (u2 & c3 & H2 & H1). apply rec_one_line_run in H2 as (L1 & L2 & ->).
  cbv [mbind incr_base_off mret push_perms do_writes] in H, H1. injection H1 as <- <-. injection H as <- <-. cbn [base_off]. lia.
Qed.
Lemma lb_native_of l : lb 1 (native_of I l).
Proof.
  unfold native_of, sum_with_constant, sum_with_constant_in_one_line. destruct (_ <? _)%nat.
  - eapply lb_wk; [eapply lb_bind; [apply lb_rt; rta|intros]; eapply lb_bind; [apply lb_rt; rta|intros]; eapply lb_bind; [apply lb_one_line_with_last|intros; apply lb_rt; rta]|lia].
  - eapply lb_wk; [eapply lb_bind; [eapply lb_bind; [apply lb_rt; rta|intros]; eapply lb_bind; [apply lb_rt; rta|intros]; eapply lb_bind; [apply lb_one_line_with_last|intros; apply lb_rt; rta]
    |intros; apply lb_rt; rta]|lia].
Qed.
Lemma lb_limb bn k b : lb 0 (assign_limb bn k b).
Proof. intros c x c' E. pose proof (rs_mono _ _ _ (rte_limb bn k b _ _ _ E)). lia. Qed.
Lemma lb_limbs {X} (f : X -> M av) l : (forall x, rte 3 (f x)) -> lb 0 (mapM f l).
Proof. intros H c x c' E. pose proof (rs_mono _ _ _ (rte_mapM 3 f l ltac:(lia) H _ _ _ E)). lia. Qed.
Lemma lb_assign_w x : lb 1 (assign_w I x).
Proof.
  unfold assign_w. cbv zeta. eapply lb_wk; [eapply lb_bind; [apply lb_limbs; intros; apply rte_limb|intros]; eapply lb_bind; [apply lb_limb|intros];
    eapply lb_bind; [apply lb_native_of|intros; apply lb_rt; rta]|lia].
Qed.
Lemma lb_assign_d x : lb 1 (assign_d I x).
Proof.
  unfold assign_d. cbv zeta. eapply lb_wk; [eapply lb_bind; [apply lb_limbs; intros; apply rte_limb|intros]; eapply lb_bind; [apply lb_limb|intros];
    eapply lb_bind; [apply lb_native_of|intros; apply lb_rt; rta]|lia].
Qed.
Lemma lb_int_mul a b : lb 3 (int_mul I a b).
Proof.
  unfold int_mul, mul_equation_on_native. cbv zeta. eapply lb_wk; [eapply lb_bind; [apply lb_assign_w|intros]; eapply lb_bind; [apply lb_assign_d|intros];
    eapply lb_bind; [apply lb_rt; rta|intros]; eapply lb_bind; [eapply lb_bind; [apply lb_one_line|intros; apply lb_rt; rta]|intros; apply lb_rt; rta]|lia].
Qed.
Ltac lbs t := cbv zeta; eapply lb_wk; [repeat (eapply lb_bind; [first [t | apply lb_rt; solve [rta]]|intros]); apply lb_rt; rta|lia].
Lemma lb_fq2_mul a b : lb 9 (fq2_mul I a b).
Proof. unfold fq2_mul. lbs ltac:(apply lb_int_mul). Qed.
Section L.
Variable nonres : afq2 -> M afq2.
Hypothesis Hn : forall a, rt (nonres a).
Hint Resolve Hn : rta.
Lemma lb_fq6_mul a b : lb 54 (fq6_mul I nonres a b).
Proof. unfold fq6_mul. lbs ltac:(apply lb_fq2_mul). Qed.
Lemma rt_nonres6 a : rt (fq6_mul_by_nonresidue nonres a). Proof. apply rt_fq6_mul_by_nonresidue. exact Hn. Qed.
Hint Resolve rt_nonres6 rt_fq6_sub rt_fq6_add : rta.
Lemma lb_fq12_mul a b : lb 162 (fq12_mul I nonres a b).
Proof. unfold fq12_mul. lbs ltac:(apply lb_fq6_mul). Qed.
End L.
Lemma lb_bn_mul a b : lb 162 (fq12_mul I (bn_nonres I) a b). Proof. apply lb_fq12_mul. apply rt_bn_nonres. Qed.
Lemma lb_bls_mul a b : lb 162 (fq12_mul I (bls_nonres I) a b). Proof. apply lb_fq12_mul. apply rt_bls_nonres. Qed.
Lemma lb_bn_check ts : lb 324 (bn_check_pairing I ts).
Proof.
  unfold bn_check_pairing, bn_pairing, pairing.
  eapply lb_wk; [eapply lb_bind; [eapply lb_bind; [apply lb_rt; rta|intros]; eapply lb_bind; [apply lb_rt; rta|intros]|intros; apply lb_rt; rta]|].
  - unfold bn_final_exponentiation. cbv zeta. eapply lb_bind; [apply lb_rt; rta|intros]. eapply lb_bind; [apply lb_rt; rta|intros].
    eapply lb_bind; [apply lb_bn_mul|intros]. eapply lb_bind; [apply lb_rt; rta|intros]. eapply lb_bind; [apply lb_bn_mul|intros]. apply lb_rt. rta.
  - lia.
Qed.
Lemma lb_bls_check ts : lb 324 (bls_check_pairing I ts).
Proof.
  unfold bls_check_pairing, bls_pairing, pairing.
  eapply lb_wk; [eapply lb_bind; [eapply lb_bind; [apply lb_rt; rta|intros]; eapply lb_bind; [apply lb_rt; rta|intros]|intros; apply lb_rt; rta]|].
  - unfold bls_final_exponentiation. cbv zeta. do 7 (eapply lb_bind; [apply lb_rt; rta|intros]).
    eapply lb_bind; [apply lb_bls_mul|intros]. do 2 (eapply lb_bind; [apply lb_rt; rta|intros]). eapply lb_bind; [apply lb_bls_mul|intros]. apply lb_rt. rta.
  - lia.
Qed.
Lemma lb_pairing_circuit n b check qs l : (forall t, lb n (check t)) -> lb n (pairing_circuit I b check qs l).
Proof.
  intros H. unfold pairing_circuit. eapply lb_wk; [eapply lb_bind; [apply lb_rt; rta|intros]; eapply lb_bind; [apply H|intros; apply lb_rt; rta]|lia].
Qed.
End Ratio.

(** The chunk condition of C39 holds once there are 16 (K + 1) base rows. *)
Lemma ratio_chunks {NM : NMod} K {X} (m : M X) x c : 0 <= K -> rt K m -> m ctx_new = Ok (x, c) -> 16 * (K + 1) <= Z.of_nat (base_h c) ->
  (let chunks := (base_h c + 15) / 16 in range_h c <= chunks * 16 * chunks)%nat.
Proof.
  intros HK H E B. destruct (H _ _ _ E) as [A0 A1 A2 A3]. cbn [base_off base_h range_off range_h ctx_new] in A1, A2, A3.
  specialize (A1 ltac:(lia)). specialize (A2 ltac:(lia)). cbv zeta.
  set (n := ((base_h c + 15) / 16)%nat). assert (N : (base_h c <= n * 16)%nat).
  { unfold n. pose proof (Nat.div_mod (base_h c + 15) 16 ltac:(lia)). pose proof (Nat.mod_upper_bound (base_h c + 15) 16 ltac:(lia)). lia. }
  clearbody n. apply Nat2Z.inj_le. rewrite !Nat2Z.inj_mul. nia.
Qed.

Lemma ratio_rows {NM : NMod} K {X} (m : M X) x c : rt K m -> m ctx_new = Ok (x, c) -> 0 <= K -> Z.of_nat (range_h c) <= K * Z.of_nat (base_h c) + 1.
Proof.
  intros H E HK. destruct (H _ _ _ E) as [A0 A1 A2 A3]. cbn [base_off base_h range_off range_h ctx_new] in A1, A2, A3.
  specialize (A1 ltac:(lia)). specialize (A2 ltac:(lia)). nia.
Qed.

(** With at most four limbs K = 16 and 272 base rows are enough. *)
Lemma check_chunks {NM : NMod} I b check qs inputs xs c : (ri_limbs I <= 4)%nat -> (forall ts, rt 16 (check ts)) -> (forall ts, lb 272 (check ts)) ->
  pairing_circuit I b check qs inputs ctx_new = Ok (xs, c) ->
  (0 < base_h c)%nat /\ (let chunks := (base_h c + 15) / 16 in range_h c <= chunks * 16 * chunks)%nat.
Proof.
  intros L R B E. assert (R' : rt 16 (pairing_circuit I b check qs inputs)) by (apply rt_pairing_circuit; [lia|lia|exact R]).
  assert (B' : lb 272 (pairing_circuit I b check qs inputs)) by (eapply (lb_pairing_circuit 16); [lia|lia|exact B]).
  pose proof (B' _ _ _ E) as B1. pose proof (rs_base _ _ _ _ (R' _ _ _ E)) as B2. cbn [base_off base_h ctx_new] in B1, B2.
  split; [lia|]. eapply (ratio_chunks 16); [lia|exact R'|exact E|lia].
Qed.
Lemma bn_chunks {NM : NMod} I b qs inputs xs c : (ri_limbs I <= 4)%nat -> pairing_circuit I b (bn_check_pairing I) qs inputs ctx_new = Ok (xs, c) ->
  (0 < base_h c)%nat /\ (let chunks := (base_h c + 15) / 16 in range_h c <= chunks * 16 * chunks)%nat.
Proof.
  intros L E. eapply check_chunks; [exact L| | |exact E]; intros ts.
  - apply rt_bn_check_pairing; lia.
  - intros c0 x c1 E1. pose proof (lb_bn_check 16 ltac:(lia) I ltac:(lia) ts _ _ _ E1). lia.
Qed.
Lemma bls_chunks {NM : NMod} I b qs inputs xs c : (ri_limbs I <= 4)%nat -> pairing_circuit I b (bls_check_pairing I) qs inputs ctx_new = Ok (xs, c) ->
  (0 < base_h c)%nat /\ (let chunks := (base_h c + 15) / 16 in range_h c <= chunks * 16 * chunks)%nat.
Proof.
  intros L E. eapply check_chunks; [exact L| | |exact E]; intros ts.
  - apply rt_bls_check_pairing; lia.
  - intros c0 x c1 E1. pose proof (lb_bls_check 16 ltac:(lia) I ltac:(lia) ts _ _ _ E1). lia.
Qed.
