(** Soundness of the foreign-field integer gadgets. *)
From Verif Require Import Prelude FieldZ Circuit Context Spec Logic ModArith Prims BaseChip BaseProofs
  RangeInfo RangeChip IntegerChip InfoProofs IntArith RangeProofs IntInv.

Global Hint Resolve appends_assign_limb appends_assign_common : app.

(** ** Append-only *)
Section App.
Context {NM : NMod}.
Variable I : rinfo.
Lemma appends_native_of l : appends (native_of I l).
Proof. unfold native_of. app. Qed.
Lemma appends_nonleading bn : appends (assign_nonleading_limb bn).
Proof. apply appends_assign_limb. Qed.
Lemma appends_w_lead bn : appends (assign_w_ceil_leading_limb I bn).
Proof. apply appends_assign_limb. Qed.
Lemma appends_d_lead bn : appends (assign_d_leading_limb I bn).
Proof. apply appends_assign_limb. Qed.
Hint Resolve appends_native_of appends_nonleading appends_w_lead appends_d_lead : app.
Lemma appends_mul_column a b d p : appends (mul_column I a b d p).
Proof. unfold mul_column. app. Qed.
Lemma appends_mul_carry u : appends (mul_carry I u).
Proof. unfold mul_carry. app. Qed.
Hint Resolve appends_mul_column appends_mul_carry : app.
Lemma appends_mul_limbs a b d rem : appends (mul_equation_on_limbs I a b d rem).
Proof. unfold mul_equation_on_limbs. app. Qed.
Lemma appends_mul_native a b d rem : appends (mul_equation_on_native I a b d rem).
Proof. unfold mul_equation_on_native. app. Qed.
Lemma appends_assign_w x : appends (assign_w I x).
Proof. unfold assign_w. app. Qed.
Lemma appends_assign_d x : appends (assign_d I x).
Proof. unfold assign_d. app. Qed.
Hint Resolve appends_mul_limbs appends_mul_native appends_assign_w appends_assign_d : app.
Lemma appends_reduce_step a d r ad ar l i : appends (reduce_step I a d r ad ar l i).
Proof. unfold reduce_step. app. Qed.
Hint Resolve appends_reduce_step : app.
Lemma appends_reduce a : appends (reduce I a).
Proof. unfold reduce. app. Qed.
Hint Resolve appends_reduce : app.
Lemma appends_cond_reduce a : appends (conditionally_reduce I a).
Proof. unfold conditionally_reduce. app. Qed.
Lemma appends_pad_of t : appends (pad_of I t).
Proof. unfold pad_of. app. Qed.
Hint Resolve appends_cond_reduce appends_pad_of : app.
Lemma appends_int_add a b : appends (int_add I a b).
Proof. unfold int_add. app. Qed.
Lemma appends_int_sub a b : appends (int_sub I a b).
Proof. unfold int_sub. app. Qed.
Lemma appends_int_neg a : appends (int_neg I a).
Proof. unfold int_neg. app. Qed.
Lemma appends_int_mul a b : appends (int_mul I a b).
Proof. unfold int_mul. app. Qed.
Lemma appends_is_pure_zero a : appends (is_pure_zero a).
Proof. unfold is_pure_zero. app. Qed.
Lemma appends_is_pure_w a : appends (is_pure_w_modulus I a).
Proof. unfold is_pure_w_modulus. app. Qed.
Hint Resolve appends_int_add appends_int_sub appends_int_neg appends_int_mul appends_is_pure_zero
  appends_is_pure_w : app.
Lemma appends_is_int_zero a : appends (is_int_zero I a).
Proof. unfold is_int_zero. app. Qed.
Hint Resolve appends_is_int_zero : app.
Lemma appends_is_int_equal a b : appends (is_int_equal I a b).
Proof. unfold is_int_equal. app. Qed.
Lemma appends_int_div a b : appends (int_div I a b).
Proof. unfold int_div. app. Qed.
Lemma appends_assign_int_constant a : appends (assign_int_constant I a).
Proof. unfold assign_int_constant. app. Qed.
Hint Resolve appends_is_int_equal appends_int_div appends_assign_int_constant : app.
Lemma appends_int_unsafe_invert a : appends (int_unsafe_invert I a).
Proof. unfold int_unsafe_invert. app. Qed.
Lemma appends_assert_int_equal a b : appends (assert_int_equal I a b).
Proof. unfold assert_int_equal. app. Qed.
Lemma appends_int_square a : appends (int_square I a).
Proof. unfold int_square. app. Qed.
Lemma appends_int_mul_small a k : appends (int_mul_small_constant I a k).
Proof. unfold int_mul_small_constant. app. Qed.
Lemma appends_bisec_int c a b : appends (bisec_int I c a b).
Proof. unfold bisec_int. app. Qed.
End App.
Global Hint Resolve appends_native_of appends_nonleading appends_w_lead appends_d_lead
  appends_mul_column appends_mul_carry appends_mul_limbs appends_mul_native appends_assign_w
  appends_assign_d appends_reduce_step appends_reduce appends_cond_reduce appends_pad_of
  appends_int_add appends_int_sub appends_int_neg appends_int_mul appends_is_pure_zero
  appends_is_pure_w appends_is_int_zero appends_is_int_equal appends_int_div
  appends_assign_int_constant appends_int_unsafe_invert appends_assert_int_equal appends_int_square
  appends_int_mul_small appends_bisec_int : app.

Section Sound.
Context {NM : NMod}.
Variable w : Z.
Variable I : rinfo.
Hypothesis IO : info_ok w I.
Hypothesis n_prime : prime nmod.
Hypothesis w_prime : prime w.
Variable T : env.
Variable A : cell -> Z.
Hypothesis A_range : forall x, 0 <= A x < nmod.

Notation L := (ri_limbs I).
Notation wb := (ri_w_ceil_bits I).
Notation v := (vA A).
Notation lv := (lv v).
Notation val := (val v).
Notation iwf := (iwf I v).
Let n_gt := n_gt w I IO.
Let n_big := n_big w I IO.

Lemma v_range x : 0 <= v x < nmod.
Proof. apply A_range. Qed.
Lemma v_exact x y : v x ≡ y ⟨nmod⟩ -> 0 <= y < nmod -> v x = y.
Proof. intros H1 H2. apply (eqm_small nmod); auto. apply v_range. Qed.

Lemma native_of_ST limbs : (length limbs <= L)%nat ->
  ST T A (native_of I limbs) (fun r => v r = lval (map v limbs) mod nmod).
Proof.
  intros H. eapply ST_weaken; [apply swc_ST|]. intros r Hr. cbv beta in Hr. cbn [opt0] in Hr.
  rewrite Z.add_0_l in Hr. change (lin A) with (linf v) in Hr.
  apply eqm_mod_intro; [|apply v_range]. rewrite Hr. apply linf_coeffs with (w := w); auto.
Qed.

Lemma fof_LIMBpow i : fof (LIMB ^ Z.of_nat i) ≡ LIMB ^ Z.of_nat i ⟨nmod⟩.
Proof. apply mod_eqm. Qed.
Lemma coeffs_nth i x : nth_error (ri_coeffs I) i = Some x -> x = fof (LIMB ^ Z.of_nat i).
Proof.
  rewrite (io_coeffs _ _ IO). intros H.
  assert (Hi : (i < L)%nat).
  { assert (K : nth_error (map (fun i => fof (LIMB ^ Z.of_nat i)) (seq 0 L)) i <> None) by congruence.
    apply nth_error_Some in K. rewrite map_length, seq_length in K. exact K. }
  rewrite (nth_error_map_seq (fun i => fof (LIMB ^ Z.of_nat i)) L i Hi) in H. congruence.
Qed.

(** Range-checked limbs. *)
Lemma limbs_ST (x : Z) (m : Z -> M av) b : 0 <= b <= 108 ->
  (forall bn, appends (m bn)) ->
  (forall bn, ST T A (m bn) (fun r => 0 <= v r < 2 ^ b)) ->
  ST T A (ls <- mapM (fun i => assign_nonleading_limb (limb_at x i)) (seq 0 (L - 1)) ;;
          l <- m (limb_at x (L - 1)) ;; mret (ls ++ [l]))
     (fun ls => length ls = L /\ (forall i, (i < L - 1)%nat -> 0 <= nth i (map v ls) 0 < LIMB)
                /\ 0 <= nth (L - 1) (map v ls) 0 < 2 ^ b).
Proof.
  intros Hb Am Hm. pose proof (io_L3 _ _ IO).
  eapply ST_bind.
  - apply (ST_mapM_seq T A _ (fun _ r => 0 <= v r < LIMB)); [app|].
    intros i _. apply assign_limb_ST; auto. unfold LIMB_BITS; lia.
  - app.
  - app.
  - intros ls [L1 H1]. eapply ST_bind; [apply Hm|auto|app|].
    intros l Hl. apply ST_ret. split; [|split].
    + rewrite app_length. cbn [length]. lia.
    + intros i Hi. rewrite map_app, app_nth1 by (rewrite map_length; lia).
      destruct (H1 i Hi) as (y & Hy & R). rewrite (nth_map_error _ _ _ _ Hy). exact R.
    + rewrite map_app, app_nth2 by (rewrite map_length; lia). rewrite map_length, L1, Nat.sub_diag.
      exact Hl.
Qed.

Lemma digits_bound (g : nat -> Z) b : 0 <= b ->
  (forall i, (i < L - 1)%nat -> 0 <= g i < LIMB) -> 0 <= g (L - 1)%nat < 2 ^ b ->
  0 <= lsum g L < 2 ^ (108 * (Z.of_nat L - 1) + b).
Proof.
  intros Hb H1 H2. pose proof (io_L3 _ _ IO) as H3.
  replace L with (S (L - 1)) at 1 2 by lia. cbn [lsum].
  assert (B := lsum_bound g (L - 1) H1). pose proof (LIMB_pow_pos (L - 1)).
  split; [nia|]. rewrite LIMB_pow in * by lia.
  replace (108 * (Z.of_nat L - 1) + b) with (Z.of_nat (L - 1) * 108 + b) by lia.
  rewrite Z.pow_add_r by lia. nia.
Qed.

Lemma assign_w_ST x : ST T A (assign_w I x) (fun r => iwf r /\ i_times r = 1).
Proof.
  unfold assign_w. pose proof (Z.mod_pos_bound wb 108 eq_refl) as HM.
  pose proof (io_wb1 _ _ IO). pose proof (io_L3 _ _ IO).
  assert (K := limbs_ST x (assign_w_ceil_leading_limb I) (wb mod 108) ltac:(lia) ltac:(app)
    ltac:(intros; apply assign_limb_ST; auto; unfold LIMB_BITS; lia)).
  intros c r c' W H' S.
  apply mbind_inv in H' as (ls & c1 & H1 & H2). apply mbind_inv in H2 as (l & c2 & H2 & H3).
  cbv zeta in H3.
  assert (RUN : (ls <- mapM (fun i => assign_nonleading_limb (limb_at x i)) (seq 0 (L - 1)) ;;
          l <- assign_w_ceil_leading_limb I (limb_at x (L - 1)) ;; mret (ls ++ [l])) c = Ok (ls ++ [l], c2)).
  { unfold mbind. rewrite H1. unfold mbind in *. rewrite H2. reflexivity. }
  assert (AP : appends (ls <- mapM (fun i => assign_nonleading_limb (limb_at x i)) (seq 0 (L - 1)) ;;
          l <- assign_w_ceil_leading_limb I (limb_at x (L - 1)) ;; mret (ls ++ [l]))) by app.
  destruct (AP _ _ _ W RUN) as [W2 E2].
  apply mbind_inv in H3 as (nt & c3 & H3 & H4). injection H4 as <- <-.
  destruct (appends_native_of I _ _ _ _ W2 H3) as [W3 E3].
  destruct (K _ _ _ W RUN (sat_mono _ _ _ _ E3 S)) as (K1 & K2 & K3).
  assert (K4 := native_of_ST (ls ++ [l]) ltac:(lia) _ _ _ W2 H3 S). cbv beta in K4.
  split; [|reflexivity].
  assert (B := digits_bound (fun i => nth i (map v (ls ++ [l])) 0) (wb mod 108) ltac:(lia) K2 K3).
  constructor; unfold IntInv.lv, IntInv.val; cbn [i_limbs i_times i_native]; try rewrite !Z.mul_1_l; auto; try lia.
  rewrite lval_lsum, map_length, K1. destruct B as [B1 B2]. split; [exact B1|].
  eapply Z.lt_le_trans; [exact B2|]. apply Z.pow_le_mono_r; [lia|]. pose proof (L_cover w I IO). lia.
Qed.

Lemma assign_d_full_ST x : ST T A (assign_d I x) (fun r =>
  length (fst r) = L /\ (forall i, 0 <= nth i (map v (fst r)) 0 < LIMB)
  /\ 0 <= lval (map v (fst r)) < 2 ^ ri_d_bits I /\ v (snd r) = lval (map v (fst r)) mod nmod
  /\ lval (map v (fst r)) < 2 ^ (108 * (Z.of_nat L - 1) + ri_d_bits I mod 108)).
Proof.
  unfold assign_d. pose proof (Z.mod_pos_bound (ri_d_bits I) 108 eq_refl) as HM.
  pose proof (io_dbits _ _ IO) as HD.
  pose proof (io_wb1 _ _ IO). pose proof (io_L3 _ _ IO).
  assert (K := limbs_ST x (assign_d_leading_limb I) (ri_d_bits I mod 108) ltac:(lia) ltac:(app)
    ltac:(intros; apply assign_limb_ST; auto; unfold LIMB_BITS; lia)).
  intros c r c' W H' S.
  apply mbind_inv in H' as (ls & c1 & H1 & H2). apply mbind_inv in H2 as (l & c2 & H2 & H3).
  cbv zeta in H3.
  assert (RUN : (ls <- mapM (fun i => assign_nonleading_limb (limb_at x i)) (seq 0 (L - 1)) ;;
          l <- assign_d_leading_limb I (limb_at x (L - 1)) ;; mret (ls ++ [l])) c = Ok (ls ++ [l], c2)).
  { unfold mbind. rewrite H1. unfold mbind in *. rewrite H2. reflexivity. }
  assert (AP : appends (ls <- mapM (fun i => assign_nonleading_limb (limb_at x i)) (seq 0 (L - 1)) ;;
          l <- assign_d_leading_limb I (limb_at x (L - 1)) ;; mret (ls ++ [l]))) by app.
  destruct (AP _ _ _ W RUN) as [W2 E2].
  apply mbind_inv in H3 as (nt & c3 & H3 & H4). injection H4 as <- <-.
  destruct (appends_native_of I _ _ _ _ W2 H3) as [W3 E3].
  destruct (K _ _ _ W RUN (sat_mono _ _ _ _ E3 S)) as (K1 & K2 & K3).
  assert (K4 := native_of_ST (ls ++ [l]) ltac:(lia) _ _ _ W2 H3 S). cbv beta in K4.
  cbn [fst snd]. split; [exact K1|].
  assert (B := digits_bound (fun i => nth i (map v (ls ++ [l])) 0) (ri_d_bits I mod 108) ltac:(lia) K2 K3).
  split; [|split; [|split; [exact K4|rewrite lval_lsum, map_length, K1; apply B]]].
  - intros i. pose proof LIMB_pos.
    destruct (le_lt_dec L i); [rewrite nth_overflow by (rewrite map_length; lia); lia|].
    destruct (Nat.eq_dec i (L - 1)) as [->|]; [|apply K2; lia].
    assert (2 ^ (ri_d_bits I mod 108) <= LIMB) by (unfold LIMB; apply Z.pow_le_mono_r; lia). lia.
  - rewrite lval_lsum, map_length, K1. destruct B as [B1 B2]. split; [exact B1|].
    eapply Z.lt_le_trans; [exact B2|]. apply Z.pow_le_mono_r; [lia|]. pose proof (L_cover w I IO).
    pose proof (io_limbs _ _ IO).
    pose proof (Z.div_mod (wb + 107) 108 ltac:(lia)). pose proof (Z.mod_pos_bound (wb + 107) 108 ltac:(lia)).
    pose proof (Z.div_mod (ri_d_bits I) 108 ltac:(lia)). lia.
Qed.
Lemma assign_d_ST x : ST T A (assign_d I x) (fun r =>
  length (fst r) = L /\ (forall i, 0 <= nth i (map v (fst r)) 0 < LIMB)
  /\ 0 <= lval (map v (fst r)) < 2 ^ ri_d_bits I /\ v (snd r) = lval (map v (fst r)) mod nmod).
Proof. eapply ST_weaken; [apply assign_d_full_ST|]. intros r (H1 & H2 & H3 & H4 & _). auto. Qed.

(** ** Reduction *)
Definition red_J (d : av) (a rem : aint) (i : nat) (last : option av) : Prop :=
  match last with
  | None => i = 0%nat
  | Some x => (1 <= i)%nat /\ 0 <= v x < LIMB
      /\ lsum (fun i => v d * wd w I i + lv rem i - lv a i) i = LIMB ^ Z.of_nat i * (v x - 64)
  end.

Lemma reduce_step_ST a q r ad arem i last :
  iwf a -> iwf arem -> i_times arem = 1 -> 0 <= v ad < 2 ^ 18 -> (i < L)%nat ->
  red_J ad a arem i last ->
  ST T A (reduce_step I a q r ad arem last i) (red_J ad a arem (S i)).
Proof.
  intros Wa Wr Tr Hd Hi HJ. unfold reduce_step.
  apply ST_nth_k. intros wi_bn _. apply ST_nth_k. intros ri _. apply ST_nth_k. intros ai Hai.
  cbv zeta. apply ST_assert_k. intros _. apply ST_assert_k. intros _. apply ST_assert_k. intros _.
  eapply ST_bind; [apply assign_limb_ST; auto; unfold LIMB_BITS; lia|app|app|].
  intros x Hx. cbv beta in Hx. fold (v x) in Hx. change (2 ^ LIMB_BITS) with LIMB in Hx.
  apply ST_nth_k. intros wi Hwi. apply ST_nth_k. intros remi Hremi.
  destruct (wl_nth w I IO _ _ Hwi) as [_ ->].
  apply (lv_nth v) in Hai. apply (lv_nth v) in Hremi.
  pose proof (lv_range I v a i Wa) as Ra. pose proof (lv_range I v arem i Wr) as Rr.
  pose proof (wf_t _ _ _ Wa) as Ta. pose proof (wd_max w I IO i) as Rw.
  pose proof (io_red_n _ _ IO) as B1. pose proof (io_red_vn _ _ IO) as B2.
  fold (maxw I) in B1. pose proof LIMB_ge as LG. rewrite Tr, Z.mul_1_l in Rr.
  set (h := fun i => v ad * wd w I i + lv arem i - lv a i) in *.
  assert (FIN : forall prev (C : Z), 0 <= prev < LIMB ->
     (i = 0%nat /\ prev = 0 /\ C = LIMB * OVERFLOW_LIMIT) \/
     ((1 <= i)%nat /\ C = LIMB * OVERFLOW_LIMIT - OVERFLOW_LIMIT
       /\ lsum h i = LIMB ^ Z.of_nat i * (prev - 64)) ->
     v ad * wd w I i + lv arem i - lv a i + prev - v x * LIMB + C ≡ 0 ⟨nmod⟩ ->
     red_J ad a arem (S i) (Some x)).
  { intros prev C Hp HC E. unfold OVERFLOW_LIMIT in HC.
    assert (EQ : v ad * wd w I i + lv arem i - lv a i + prev + C = LIMB * v x).
    { assert (0 <= v ad * wd w I i <= (2 ^ 18 - 1) * maxw I) by nia.
      apply (eqm_small nmod); [|destruct HC as [HC|HC]; nia|nia].
      etransitivity; [|apply eqm_eq; reflexivity]. apply eqm_sub_0. rewrite <- E. apply eqm_eq. ring. }
    cbn [red_J]. split; [lia|]. split; [exact Hx|]. fold h. cbn [lsum]. rewrite LIMB_pow_S.
    destruct HC as [(-> & -> & ->)|(H1 & -> & ->)].
    - cbn [lsum]. change (LIMB ^ Z.of_nat 0) with 1. unfold h. lia.
    - unfold h. set (P := LIMB ^ Z.of_nat i). clearbody P. nia. }
  destruct last as [lx|].
  - destruct HJ as (H1 & H2 & H3). stb ST_one_line_with_last. row x0 C0 C1 G. apply ST_ret.
    apply (FIN (v lx) _ H2 (or_intror (conj H1 (conj eq_refl H3)))).
    estrip_in G. rewrite <- Hai, <- Hremi. fold (v lx) (v x) (v ad) (v ai) (v remi) in G.
    destruct (Nat.eqb_spec i 0); [lia|]. eby G.
  - cbn [red_J] in HJ. subst i. stb ST_one_line_with_last. row x0 C0 C1 G. apply ST_ret.
    apply (FIN 0 (LIMB * OVERFLOW_LIMIT) ltac:(lia) ltac:(auto)).
    estrip_in G. rewrite <- Hai, <- Hremi. fold (v x) (v ad) (v ai) (v remi) in G.
    cbn [Nat.eqb] in G. rewrite ?Z.sub_0_r in G. eby G.
Qed.

Lemma reduce_ST a : (i_times a <= 63 -> iwf a) ->
  ST T A (reduce I a) (fun r => iwf r /\ i_times r = 1 /\ val r ≡ val a ⟨w⟩).
Proof.
  intros Wa. unfold reduce. destruct (Z.eqb_spec (i_times a) 1) as [E|NE].
  - apply ST_ret. split; [apply Wa; lia|]. split; [exact E|reflexivity].
  - apply ST_assert_k. intros HT. apply Z.ltb_lt in HT. unfold OVERFLOW_LIMIT in HT.
    specialize (Wa ltac:(lia)). cbv zeta.
    stb assign_w_ST. intros arem [Wr Tr].
    eapply ST_bind; [apply assign_common_ST; auto|app|app|]. intros ad Hd. cbv beta in Hd. fold (v ad) in Hd.
    stb ST_one_line_with_last. row x0 C0 C1 G.
    estrip_in G. fold (v ad) (v (i_native a)) (v (i_native arem)) in G.
    rewrite (wf_nat _ _ _ Wa), (wf_nat _ _ _ Wr), (io_w_native _ _ IO) in G. estrip_in G.
    pose proof (io_red_L _ _ IO) as HRL.
    eapply ST_bind.
    + apply (ST_foldM_seq T A _ (red_J ad a arem)); [app|reflexivity|].
      intros i s Hi Hs. apply reduce_step_ST; auto. lia.
    + app.
    + app.
    + intros last HJ. apply ST_ret. split; [exact Wr|]. split; [exact Tr|].
      cbn [Nat.add] in HJ. destruct last as [x|]; [|cbn [red_J] in HJ; lia].
      destruct HJ as (_ & _ & HJ).
      set (h := fun i => v ad * wd w I i + lv arem i - lv a i) in *.
      assert (HL : lsum h L = v ad * w + val arem - val a).
      { unfold h. rewrite lsum_sub, lsum_add, lsum_scale, (wd_lsum w I IO w_prime).
        rewrite !(val_lsum I) by (eapply wf_len; eauto). reflexivity. }
      assert (EQ : v ad * w + val arem = val a).
      { pose proof (wf_val _ _ _ Wa). pose proof (wf_val _ _ _ Wr). rewrite Tr in *.
        pose proof (io_red_lcm _ _ IO). pose proof (io_red_a _ _ IO). pose proof (wb_pos w I IO).
        pose proof (w_pos w w_prime).
        apply (crt_eq nmod (LIMB ^ Z.of_nat (ri_reduce I))).
        - pose proof (n_pos n_prime). lia.
        - apply LIMB_pow_pos.
        - eby G.
        - apply eqm_sub_0. rewrite <- HL. rewrite (lsum_mod h (ri_reduce I) L) by lia. rewrite HJ.
          apply eqm_divide; [pose proof (LIMB_pow_pos (ri_reduce I)); lia|]. rewrite Z.sub_0_r.
          apply Z.divide_factor_l.
        - nia.
        - nia. }
      rewrite <- EQ. apply eqm_divide; [pose proof (w_pos w w_prime); lia|].
      exists (- v ad). ring.
Qed.

Lemma cond_reduce_ST a : 1 <= i_times a -> (i_times a <= 63 -> iwf a) ->
  ST T A (conditionally_reduce I a) (fun r => iwf r /\ i_times r <= 16 /\ val r ≡ val a ⟨w⟩).
Proof.
  intros H1 H2. unfold conditionally_reduce, THRESHOLD. destruct (Z.ltb_spec 16 (i_times a)).
  - eapply ST_weaken; [apply reduce_ST; exact H2|]. intros r (W & E & V). split; [auto|]. split; [lia|auto].
  - apply ST_ret. split; [apply H2; lia|]. split; [lia|reflexivity].
Qed.

(** ** Limb-wise operations *)
Lemma comb_ST (op : nat -> M av) (g : nat -> Z) t :
  (forall i, appends (op i)) ->
  (forall i, (i < L)%nat -> ST T A (op i) (fun r => v r ≡ g i ⟨nmod⟩)) ->
  (forall i, (i < L)%nat -> 0 <= g i < nmod) ->
  1 <= t ->
  (t <= 63 -> (forall i, (i < L - 1)%nat -> g i < t * LIMB)
       /\ g (L - 1)%nat < t * 2 ^ (wb mod 108) /\ lsum g L < t * 2 ^ wb) ->
  ST T A (limbs <- mapM op (seq 0 L) ;; native <- native_of I limbs ;;
          conditionally_reduce I (mkInt limbs native t))
     (fun r => iwf r /\ i_times r <= 16 /\ val r ≡ lsum g L ⟨w⟩).
Proof.
  intros Ao Ho Hg Ht HB. pose proof (io_L3 _ _ IO) as H3.
  eapply ST_bind.
  - apply (ST_mapM_seq T A op (fun i r => v r = g i)); [exact Ao|].
    intros i Hi. eapply ST_weaken; [apply Ho; lia|]. intros r Hr. apply v_exact; auto. apply Hg. lia.
  - app.
  - app.
  - intros ls HL. cbn [Nat.add] in HL.
    eapply ST_bind; [apply native_of_ST; lia|app|app|]. intros nt Hn. cbv beta in Hn.
    assert (LN := limbs_of v g ls L HL). assert (LV := lval_of v g ls L HL).
    eapply ST_weaken; [apply cond_reduce_ST; cbn [i_times]; [exact Ht|]|].
    + intros H63. destruct (HB H63) as (B1 & B2 & B3).
      constructor; unfold IntInv.lv, IntInv.val; cbn [i_limbs i_times i_native].
      * apply HL.
      * lia.
      * intros i Hi. rewrite LN by lia. split; [apply Hg; lia|auto].
      * rewrite LN by lia. split; [apply Hg; lia|auto].
      * rewrite LV. split; [|auto]. apply lsum_nonneg. intros i Hi. apply Hg. lia.
      * exact Hn.
    + intros r (W & E & V). split; [auto|]. split; [auto|]. rewrite V.
      unfold IntInv.val at 1. cbn [i_limbs]. rewrite LV. reflexivity.
Qed.

Lemma L_small : Z.of_nat L <= 66.
Proof. pose proof (L_le w I IO). lia. Qed.

Lemma int_add_ST a b : iwf a -> iwf b ->
  ST T A (int_add I a b) (fun r => iwf r /\ i_times r <= 16 /\ val r ≡ val a + val b ⟨w⟩).
Proof.
  intros Wa Wb. unfold int_add. pose proof (wf_t _ _ _ Wa). pose proof (wf_t _ _ _ Wb). pose proof LIMB_pos.
  eapply ST_weaken; [apply (comb_ST _ (fun i => lv a i + lv b i)); [app| | |lia|]|].
  - intros i Hi. apply ST_nth_k. intros x Hx. apply ST_nth_k. intros y Hy.
    rewrite <- (lv_nth v _ _ _ Hx), <- (lv_nth v _ _ _ Hy). apply add_ST.
  - intros i Hi. pose proof (lv_range I v a i Wa). pose proof (lv_range I v b i Wb). cbv beta. nia.
  - intros _. split; [|split].
    + intros i Hi. pose proof (wf_low _ _ _ Wa i Hi). pose proof (wf_low _ _ _ Wb i Hi). lia.
    + pose proof (wf_lead _ _ _ Wa). pose proof (wf_lead _ _ _ Wb). lia.
    + rewrite lsum_add, <- !(val_lsum I) by (eapply wf_len; eauto).
      pose proof (wf_val _ _ _ Wa). pose proof (wf_val _ _ _ Wb). lia.
  - intros r (W & E & V). split; [auto|]. split; [auto|]. rewrite V.
    rewrite lsum_add, <- !(val_lsum I) by (eapply wf_len; eauto). reflexivity.
Qed.

Lemma pad_of_ST t : 1 <= t <= 63 ->
  ST T A (pad_of I t) (fun u => exists us, u = map fof us /\ pad_spec L w wb t us).
Proof.
  intros Ht. unfold pad_of. apply ST_nth_k. intros o Ho. apply ST_opt. intros u Hu.
  destruct (io_pad _ _ IO t Ht) as (us & Hus & P). rewrite Ho in Hus. injection Hus as ->.
  injection Hu as <-. eauto.
Qed.

Section Pad.
Variables (t : Z) (us : list Z).
Hypothesis Ht : 1 <= t <= 63.
Hypothesis P : pad_spec L w wb t us.
Lemma pad_nth i u : nth_error (map fof us) i = Some u -> u = fof (nth i us 0).
Proof.
  intros H. rewrite nth_error_map in H. destruct (nth_error us i) as [x|] eqn:E; [|discriminate].
  injection H as <-. rewrite (nth_error_nth _ _ _ E). reflexivity.
Qed.
Lemma pad_range i : (i < L)%nat -> 0 <= nth i us 0 < (t + 1) * LIMB.
Proof.
  intros Hi. pose proof LIMB_pos. destruct (Nat.eq_dec i (L - 1)) as [->|].
  - pose proof (ps_lead _ _ _ _ _ P). pose proof (lead_le I).
    assert (0 < 2 ^ (wb mod 108)) by (apply Z.pow_pos_nonneg; [lia|apply Z.mod_pos_bound; lia]). nia.
  - pose proof (ps_low _ _ _ _ _ P i ltac:(lia)). nia.
Qed.
Lemma pad_lsum : lsum (fun i => nth i us 0) L = lval us.
Proof. rewrite lval_lsum, (ps_len _ _ _ _ _ P). reflexivity. Qed.
Lemma pad_mod : lval us ≡ 0 ⟨w⟩.
Proof.
  apply eqm_divide; [pose proof (w_pos w w_prime); lia|]. rewrite Z.sub_0_r. apply (ps_mult _ _ _ _ _ P).
Qed.
End Pad.

Lemma int_sub_ST a b : iwf a -> iwf b ->
  ST T A (int_sub I a b) (fun r => iwf r /\ i_times r <= 16 /\ val r ≡ val a - val b ⟨w⟩).
Proof.
  intros Wa Wb. unfold int_sub. pose proof (wf_t _ _ _ Wa) as Ta. pose proof (wf_t _ _ _ Wb) as Tb.
  pose proof LIMB_pos.
  eapply ST_bind; [apply pad_of_ST; lia|app|app|]. intros u (us & -> & P).
  assert (GB : forall i, (i < L)%nat -> lv b i <= nth i us 0).
  { intros i Hi. destruct (Nat.eq_dec i (L - 1)) as [->|].
    - pose proof (ps_lead _ _ _ _ _ P). pose proof (wf_lead _ _ _ Wb). lia.
    - pose proof (ps_low _ _ _ _ _ P i ltac:(lia)). pose proof (wf_low _ _ _ Wb i ltac:(lia)). lia. }
  assert (LS : lsum (fun i => lv a i - lv b i + nth i us 0) L = val a - val b + lval us).
  { rewrite lsum_add, lsum_sub, <- !(val_lsum I) by (eapply wf_len; eauto).
    rewrite (pad_lsum _ _ P). reflexivity. }
  eapply ST_weaken; [apply (comb_ST _ (fun i => lv a i - lv b i + nth i us 0)); [app| | |lia|]|].
  - intros i Hi. apply ST_nth_k. intros x Hx. apply ST_nth_k. intros y Hy. apply ST_nth_k. intros u Hu.
    apply pad_nth in Hu. subst u.
    rewrite <- (lv_nth v _ _ _ Hx), <- (lv_nth v _ _ _ Hy).
    eapply ST_weaken; [apply swc_ST|]. intros r Hr. cbv beta in Hr. rewrite Hr.
    unfold lin; cbn [fold_right fst snd opt0]; estrip; apply eqm_eq; ring.
  - intros i Hi. pose proof (lv_range I v a i Wa). pose proof (lv_range I v b i Wb).
    pose proof (pad_range _ _ ltac:(eassumption) P i Hi). specialize (GB i Hi). cbv beta. nia.
  - intros _. split; [|split].
    + intros i Hi. pose proof (wf_low _ _ _ Wa i Hi). pose proof (wf_low _ _ _ Wb i Hi).
      pose proof (ps_low _ _ _ _ _ P i Hi). nia.
    + pose proof (wf_lead _ _ _ Wa). pose proof (wf_lead _ _ _ Wb). pose proof (ps_lead _ _ _ _ _ P). nia.
    + rewrite LS. pose proof (wf_val _ _ _ Wa). pose proof (wf_val _ _ _ Wb).
      pose proof (ps_hi _ _ _ _ _ P). pose proof (w_lt w I IO w_prime). nia.
  - intros r (W & E & V). split; [auto|]. split; [auto|]. rewrite V, LS, (pad_mod _ _ P).
    apply eqm_eq. ring.
Qed.

Lemma int_neg_ST a : iwf a ->
  ST T A (int_neg I a) (fun r => iwf r /\ i_times r <= 16 /\ val r ≡ - val a ⟨w⟩).
Proof.
  intros Wa. unfold int_neg. pose proof (wf_t _ _ _ Wa) as Ta. pose proof LIMB_pos.
  eapply ST_bind; [apply pad_of_ST; lia|app|app|]. intros u (us & -> & P).
  assert (GB : forall i, (i < L)%nat -> lv a i <= nth i us 0).
  { intros i Hi. destruct (Nat.eq_dec i (L - 1)) as [->|].
    - pose proof (ps_lead _ _ _ _ _ P). pose proof (wf_lead _ _ _ Wa). lia.
    - pose proof (ps_low _ _ _ _ _ P i ltac:(lia)). pose proof (wf_low _ _ _ Wa i ltac:(lia)). lia. }
  assert (LS : lsum (fun i => nth i us 0 - lv a i) L = lval us - val a).
  { rewrite lsum_sub, <- !(val_lsum I) by (eapply wf_len; eauto).
    rewrite (pad_lsum _ _ P). reflexivity. }
  eapply ST_weaken; [apply (comb_ST _ (fun i => nth i us 0 - lv a i)); [app| | |lia|]|].
  - intros i Hi. apply ST_nth_k. intros x Hx. apply ST_nth_k. intros u Hu.
    apply pad_nth in Hu. subst u.
    rewrite <- (lv_nth v _ _ _ Hx).
    eapply ST_weaken; [apply swc_ST|]. intros r Hr. cbv beta in Hr. rewrite Hr.
    unfold lin; cbn [fold_right fst snd opt0]; estrip; apply eqm_eq; ring.
  - intros i Hi. pose proof (lv_range I v a i Wa).
    pose proof (pad_range _ _ ltac:(eassumption) P i Hi). specialize (GB i Hi). cbv beta. nia.
  - intros _. split; [|split].
    + intros i Hi. pose proof (wf_low _ _ _ Wa i Hi). pose proof (ps_low _ _ _ _ _ P i Hi). nia.
    + pose proof (wf_lead _ _ _ Wa). pose proof (ps_lead _ _ _ _ _ P). nia.
    + rewrite LS. pose proof (wf_val _ _ _ Wa).
      pose proof (ps_hi _ _ _ _ _ P). pose proof (w_lt w I IO w_prime). nia.
  - intros r (W & E & V). split; [auto|]. split; [auto|]. rewrite V, LS, (pad_mod _ _ P).
    apply eqm_eq. ring.
Qed.

Lemma int_mul_small_ST a k : iwf a -> 1 <= k ->
  ST T A (int_mul_small_constant I a k) (fun r => iwf r /\ i_times r <= 16 /\ val r ≡ val a * k ⟨w⟩).
Proof.
  intros Wa Hk. unfold int_mul_small_constant, THRESHOLD, OVERFLOW_LIMIT.
  apply ST_assert_k. intros HK. apply Z.ltb_lt in HK.
  eapply ST_bind with (Q := fun r => iwf r /\ i_times r * k < 64 /\ val r ≡ val a ⟨w⟩).
  - destruct (Z.leb_spec 64 (i_times a * k)).
    + eapply ST_weaken; [apply reduce_ST; auto|]. intros r (W & E & V). split; [auto|]. split; [lia|auto].
    + apply ST_ret. split; [auto|]. split; [lia|reflexivity].
  - app.
  - app.
  - clear Wa. intros a0 (Wa & HT & EV). pose proof (wf_t _ _ _ Wa) as Ta. pose proof LIMB_pos.
    assert (LS : lsum (fun i => k * lv a0 i) L = k * val a0).
    { rewrite lsum_scale, <- !(val_lsum I) by (eapply wf_len; eauto). reflexivity. }
    eapply ST_weaken; [apply (comb_ST _ (fun i => k * lv a0 i)); [app| | |nia|]|].
    + intros i Hi. apply ST_nth_k. intros x Hx. rewrite <- (lv_nth v _ _ _ Hx).
      eapply ST_weaken; [apply swc_ST|]. intros r Hr. cbv beta in Hr. rewrite Hr.
      unfold lin; cbn [fold_right fst snd opt0]; estrip; apply eqm_eq; ring.
    + intros i Hi. pose proof (lv_range I v a0 i Wa). cbv beta. nia.
    + intros _. split; [|split].
      * intros i Hi. pose proof (wf_low _ _ _ Wa i Hi). nia.
      * pose proof (wf_lead _ _ _ Wa). nia.
      * rewrite LS. pose proof (wf_val _ _ _ Wa). nia.
    + intros r (W & E & V). split; [auto|]. split; [auto|]. rewrite V, LS, EV. apply eqm_eq. ring.
Qed.

Lemma bisec_int_ST c a b : iwf a -> iwf b -> v c = 0 \/ v c = 1 ->
  ST T A (bisec_int I c a b) (fun r => iwf r /\ i_times r = Z.max (i_times a) (i_times b)
     /\ val r = (if v c =? 1 then val a else val b)).
Proof.
  intros Wa Wb Hc. unfold bisec_int.
  set (s := if v c =? 1 then a else b).
  assert (Ws : iwf s) by (unfold s; destruct (_ =? _); auto).
  assert (Ts : i_times s <= Z.max (i_times a) (i_times b)) by (unfold s; destruct (_ =? _); lia).
  assert (BS : forall x y, ST T A (bisec c x y) (fun r => v r = if v c =? 1 then v x else v y)).
  { intros x y. eapply ST_weaken; [apply bisec_ST|]. intros r Hr. cbv beta in Hr.
    apply v_exact; [|destruct (_ =? _); apply v_range]. rewrite Hr.
    destruct Hc as [E|E]; rewrite E; [change (0 =? 1) with false|change (1 =? 1) with true]; cbv iota; apply eqm_eq; ring. }
  eapply ST_bind.
  - apply (ST_mapM_seq T A _ (fun i r => v r = lv s i)); [app|].
    intros i Hi. apply ST_nth_k. intros x Hx. apply ST_nth_k. intros y Hy.
    eapply ST_weaken; [apply BS|]. intros r Hr. cbv beta in Hr. rewrite Hr. unfold s.
    rewrite (lv_nth v _ _ _ Hx), (lv_nth v _ _ _ Hy). destruct (_ =? _); reflexivity.
  - app.
  - app.
  - intros ls HL. cbn [Nat.add] in HL. stb BS. intros nt Hn. cbv beta in Hn. apply ST_ret.
    assert (LN := limbs_of v _ ls L HL). assert (LV := lval_of v _ ls L HL).
    pose proof (wf_t _ _ _ Ws). pose proof (wf_t _ _ _ Wa). pose proof (wf_t _ _ _ Wb).
    pose proof LIMB_pos. pose proof (io_L3 _ _ IO).
    assert (0 < 2 ^ (wb mod 108)) by (apply Z.pow_pos_nonneg; [lia|apply Z.mod_pos_bound; lia]).
    pose proof (wb_pos w I IO).
    rewrite <- (val_lsum I) in LV by (eapply wf_len; eauto).
    split; [|split; [reflexivity|]].
    + constructor; unfold IntInv.lv, IntInv.val; cbn [i_limbs i_times i_native].
      * apply HL.
      * lia.
      * intros i Hi. rewrite LN by lia. pose proof (wf_low _ _ _ Ws i Hi). nia.
      * rewrite LN by lia. pose proof (wf_lead _ _ _ Ws). nia.
      * rewrite LV. pose proof (wf_val _ _ _ Ws). nia.
      * rewrite LV, Hn. unfold s. destruct (_ =? _); [apply (wf_nat _ _ _ Wa)|apply (wf_nat _ _ _ Wb)].
    + unfold IntInv.val at 1. cbn [i_limbs]. rewrite LV. unfold s. destruct (_ =? _); reflexivity.
Qed.

(** ** Multiplication *)
Notation "'dl' d" := (fun i => nth i (map v d) 0) (at level 10).
Definition colv (a b : aint) (d : list av) (p : nat) : Z :=
  conv (lv a) (lv b) p - conv (dl d) (wd w I) p.

Lemma wd_out i : (L <= i)%nat -> wd w I i = 0.
Proof. intros H. unfold wd. destruct (Nat.ltb_spec i L); [lia|reflexivity]. Qed.
Lemma dl_out (d : list av) i : length d = L -> (L <= i)%nat -> nth i (map v d) 0 = 0.
Proof. intros H1 H2. apply nth_overflow. rewrite map_length. lia. Qed.

Lemma mul_column_ST a b d p : length (i_limbs a) = L -> length (i_limbs b) = L -> length d = L ->
  ST T A (mul_column I a b d p) (fun r => v r ≡ colv a b d p ⟨nmod⟩).
Proof.
  intros La Lb Ld. unfold mul_column. cbv zeta.
  set (win := seq (p - (L - 1)) (Nat.min (p + 1) L - (p - (L - 1)))).
  eapply ST_bind with (Q := fun ts => mdot A ts ≡
     zsum (fun i => lv a i * lv b (p - i) - nth i (map v d) 0 * wd w I (p - i)) win ⟨nmod⟩).
  - eapply ST_weaken.
    + apply (ST_mapM T A _ win (fun i (t : mterm) => let '(x, y, z, k) := t in
        v x * v y + v z * k ≡ lv a i * lv b (p - i) - nth i (map v d) 0 * wd w I (p - i) ⟨nmod⟩)); [app|].
      intros i Hi. apply ST_nth_k. intros x Hx. apply ST_nth_k. intros y Hy. apply ST_nth_k. intros z Hz.
      apply ST_nth_k. intros k Hk. apply ST_ret.
      destruct (wl_nth w I IO _ _ Hk) as [_ ->].
      rewrite (lv_nth v _ _ _ Hx), (lv_nth v _ _ _ Hy), (nth_map_error v _ _ _ Hz).
      estrip. apply eqm_eq. ring.
    + intros ts HF. clear -HF. induction HF as [|i [[[x y] z] k] l ts H _ IH]; [reflexivity|].
      cbn [mdot fold_right zsum]. fold (mdot A ts). rewrite H, IH. reflexivity.
  - app.
  - app.
  - intros ts Hts. eapply ST_weaken; [apply mawnl_ST|]. intros r Hr. cbv beta in Hr. rewrite Hr, Hts.
    unfold colv. rewrite (conv_window (lv a) (lv b) L p), (conv_window (dl d) (wd w I) L p).
    + rewrite <- zsum_sub. reflexivity.
    + intros i Hi. apply dl_out; auto.
    + apply wd_out.
    + intros i Hi. apply lv_out with (I := I); auto.
    + intros i Hi. apply lv_out with (I := I); auto.
Qed.

Definition pairv (x : av * av) : Z := v (fst x) * LIMB + v (snd x).
Lemma mul_carry_ST u U : v u ≡ U ⟨nmod⟩ -> 0 <= U < nmod ->
  ST T A (mul_carry I u) (fun r => LIMB * pairv r = U /\ 0 <= pairv r <= LIMB * 2 ^ 18 - 1).
Proof.
  intros Hu HU. unfold mul_carry. cbv zeta. apply ST_assert_k. intros _.
  eapply ST_bind; [apply assign_common_ST; auto|app|app|]. intros vh Hh. cbv beta in Hh. fold (v vh) in Hh.
  eapply ST_bind; [apply assign_limb_ST; auto; unfold LIMB_BITS; lia|app|app|]. intros vl Hl. cbv beta in Hl.
  fold (v vl) in Hl. change (2 ^ LIMB_BITS) with LIMB in Hl.
  apply ST_nth_k. intros c2 H2. apply ST_nth_k. intros c1 H1.
  apply coeffs_nth in H2, H1. subst c2 c1.
  stb ST_one_line_with_last. row x0 C0 C1 G. apply ST_ret. unfold pairv. cbn [fst snd].
  estrip_in G. fold (v vh) (v vl) (v u) in G.
  assert (B : 0 <= v vh * LIMB + v vl <= LIMB * 2 ^ 18 - 1) by nia.
  split; [|exact B]. pose proof (io_mul_n _ _ IO). pose proof LIMB_pos.
  apply (eqm_small nmod); [|nia|exact HU]. rewrite <- Hu.
  change (Z.of_nat 2) with 2 in G. change (Z.of_nat 1) with 1 in G.
  apply eqm_sub_0. rewrite <- G. apply eqm_eq. ring.
Qed.

Lemma conv_bound (x y : nat -> Z) X Y p :
  (forall i, (L <= i)%nat -> x i = 0) -> (forall i, (L <= i)%nat -> y i = 0) ->
  (forall i, 0 <= x i <= X) -> (forall i, 0 <= y i <= Y) ->
  0 <= conv x y p <= Z.of_nat L * (X * Y).
Proof.
  intros H1 H2 H3 H4. rewrite (conv_window x y L p H1 H2).
  set (l := (Nat.min (p + 1) L - (p - (L - 1)))%nat).
  assert (K := zsum_bound (fun i => x i * y (p - i)%nat) (seq (p - (L - 1)) l) (X * Y)).
  rewrite seq_length in K. assert (Hl : (l <= L)%nat) by (unfold l; lia).
  specialize (H3 0%nat) as H30. specialize (H4 0%nat) as H40.
  specialize (K ltac:(intros i _; specialize (H3 i); specialize (H4 (p - i)%nat); cbv beta; nia)).
  split; [lia|]. assert (0 <= X * Y) by nia. nia.
Qed.

Definition borrow : Z := Z.of_nat L * LIMB + 2.

(** Bounds on one accumulated column. *)
Lemma col_bounds (x y d r : nat -> Z) V p :
  (forall i, (L <= i)%nat -> x i = 0) -> (forall i, (L <= i)%nat -> y i = 0) ->
  (forall i, (L <= i)%nat -> d i = 0) ->
  (forall i, 0 <= x i < 63 * LIMB) -> (forall i, 0 <= y i < 63 * LIMB) ->
  (forall i, 0 <= d i < LIMB) -> (forall i, 0 <= r i < LIMB) -> 0 <= V <= LIMB * 2 ^ 18 - 1 ->
  0 <= conv x y p - conv d (wd w I) p - r p + V + LIMB * borrow - borrow
  /\ conv x y p - conv d (wd w I) p - r p + V + LIMB * borrow <= (LIMB * 2 ^ 18 - 1) * LIMB.
Proof.
  intros X0 Y0 D0 HX HY HD HR HV. specialize (HR p).
  assert (B1 := conv_bound x y (63 * LIMB) (63 * LIMB) p X0 Y0
    ltac:(intros i; specialize (HX i); lia) ltac:(intros i; specialize (HY i); lia)).
  assert (B2 := conv_bound d (wd w I) (LIMB - 1) (maxw I) p D0 wd_out
    ltac:(intros i; specialize (HD i); lia) (wd_max w I IO)).
  pose proof (io_mul_borrow _ _ IO) as K1. fold (maxw I) borrow in K1.
  pose proof (L_le w I IO) as K2. pose proof LIMB_ge as LG. unfold borrow in *.
  set (C1 := conv x y p) in *. set (C2 := conv d (wd w I) p) in *. clearbody C1 C2. clear HX HY HD X0 Y0 D0.
  split; [nia|]. set (l := Z.of_nat L) in *. clearbody l.
  assert (3970 * l * (LIMB * LIMB) <= (2 ^ 18 - 1) * (LIMB * LIMB)) by nia. nia.
Qed.

Section MulEq.
Variables (a b rem : aint) (d : list av).
Hypothesis Wa : iwf a. Hypothesis Wb : iwf b. Hypothesis Wr : iwf rem.
Hypothesis Ld : length d = L.
Hypothesis Rd : forall i, 0 <= nth i (map v d) 0 < LIMB.
Hypothesis Tr : i_times rem = 1.

Lemma lv63 x i : iwf x -> 0 <= lv x i < 63 * LIMB.
Proof. intros W. pose proof (lv_range I v x i W). pose proof (wf_t _ _ _ W). pose proof LIMB_pos. nia. Qed.

Lemma col_step V p : 0 <= V <= LIMB * 2 ^ 18 - 1 ->
  0 <= colv a b d p - lv rem p + V + LIMB * borrow - borrow
  /\ colv a b d p - lv rem p + V + LIMB * borrow < nmod.
Proof.
  intros HV. assert (B := col_bounds (lv a) (lv b) (dl d) (lv rem) V p
    (fun i => lv_out I v a i (wf_len _ _ _ Wa)) (fun i => lv_out I v b i (wf_len _ _ _ Wb))
    (fun i => dl_out d i Ld) (fun i => lv63 a i Wa) (fun i => lv63 b i Wb) Rd
    ltac:(intros i; pose proof (lv_range I v rem i Wr) as R; rewrite Tr in R; lia) HV).
  pose proof (io_mul_n _ _ IO). unfold colv. lia.
Qed.

Definition mul_J (k : nat) (x : av * av) : Prop :=
  0 <= pairv x <= LIMB * 2 ^ 18 - 1 /\
  lsum (fun i => colv a b d i - lv rem i) k = LIMB ^ Z.of_nat k * (pairv x - borrow).

Lemma mul_J_step k x y : (1 <= k)%nat -> mul_J k x ->
  LIMB * pairv y = colv a b d k - lv rem k + pairv x + LIMB * borrow - borrow ->
  0 <= pairv y <= LIMB * 2 ^ 18 - 1 -> mul_J (S k) y.
Proof.
  intros Hk [H1 H2] H3 H4. split; [exact H4|]. cbn [lsum]. rewrite H2, LIMB_pow_S.
  set (P := LIMB ^ Z.of_nat k). clearbody P. nia.
Qed.

Lemma mul_limbs_ST :
  ST T A (mul_equation_on_limbs I a b d rem)
     (fun _ => val a * val b ≡ lval (map v d) * w + val rem ⟨LIMB ^ Z.of_nat (ri_mul I)⟩).
Proof.
  unfold mul_equation_on_limbs. apply ST_assert_k. intros _. apply ST_assert_k. intros _.
  apply ST_assert_k. intros _. pose proof (io_mul_L _ _ IO) as HM. pose proof (io_L3 _ _ IO) as H3.
  pose proof (wf_len _ _ _ Wa) as La. pose proof (wf_len _ _ _ Wb) as Lb. pose proof (wf_len _ _ _ Wr) as Lr.
  eapply ST_bind.
  { apply (ST_mapM_seq T A _ (fun p r => v r ≡ colv a b d p ⟨nmod⟩)); [app|].
    intros i _. apply mul_column_ST; auto. }
  { app. } { app. }
  intros limbs [HL HC]. cbn [Nat.add] in HC. cbv zeta.
  set (bf := fadd (fmul (fof (Z.of_nat L)) (ri_limb_n I)) (fof 2)).
  assert (EB : bf ≡ borrow ⟨nmod⟩).
  { unfold bf, borrow. rewrite (io_limb_n _ _ IO). estrip. reflexivity. }
  assert (ELN : ri_limb_n I ≡ LIMB ⟨nmod⟩) by (rewrite (io_limb_n _ _ IO); apply mod_eqm).
  apply ST_nth_k. intros l0 Hl0. apply ST_nth_k. intros r0 Hr0.
  destruct (HC 0%nat ltac:(lia)) as (l0' & Hl0' & C0). rewrite Hl0 in Hl0'. injection Hl0' as <-.
  apply (lv_nth v) in Hr0.
  stb swc_ST. intros u Hu. cbv beta in Hu.
  eapply ST_bind with (Q := mul_J 1).
  { eapply ST_weaken; [apply (mul_carry_ST u (colv a b d 0 - lv rem 0 + LIMB * borrow))|].
    - rewrite Hu. unfold lin. cbn [fold_right fst snd opt0]. fold (v l0) (v r0). rewrite Hr0, C0.
      estrip. rewrite EB, ELN. apply eqm_eq. ring.
    - assert (B := col_step 0 0 ltac:(pose proof LIMB_ge; lia)). unfold borrow in *. pose proof LIMB_ge. lia.
    - intros y [E B]. split; [exact B|]. cbn [lsum]. change (LIMB ^ Z.of_nat 0) with 1.
      change (LIMB ^ Z.of_nat 1) with (LIMB * 1). lia. }
  { app. } { app. }
  intros v0 HJ0.
  eapply ST_bind with (Q := mul_J L).
  { replace L with (1 + (L - 1))%nat at 2 by lia.
    apply (ST_foldM_seq T A _ mul_J); [app|exact HJ0|].
    intros i s Hi Hs. apply ST_nth_k. intros li Hli. apply ST_nth_k. intros ri Hri.
    apply ST_nth_k. intros c1 H1. apply ST_nth_k. intros c0 H0. apply coeffs_nth in H0, H1. subst c0 c1.
    destruct (HC i ltac:(lia)) as (li' & Hli' & Ci). rewrite Hli in Hli'. injection Hli' as <-.
    apply (lv_nth v) in Hri.
    stb swc_ST. intros u' Hu'. cbv beta in Hu'.
    eapply ST_weaken; [apply (mul_carry_ST u' (colv a b d i - lv rem i + pairv s + LIMB * borrow - borrow))|].
    - rewrite Hu'. unfold lin. cbn [fold_right fst snd opt0]. fold (v li) (v ri) (v (fst s)) (v (snd s)).
      rewrite Hri, Ci. estrip. rewrite EB, ELN. unfold pairv.
      change (LIMB ^ Z.of_nat 0) with 1. change (LIMB ^ Z.of_nat 1) with (LIMB * 1). apply eqm_eq. ring.
    - assert (B := col_step (pairv s) i (proj1 Hs)). unfold borrow in *. pose proof LIMB_ge. lia.
    - intros y [E B]. eapply mul_J_step; eauto. lia. }
  { app. } { app. }
  intros v1 HJ1. apply ST_assert_k. intros _.
  eapply ST_bind with (Q := mul_J (ri_mul I)).
  { replace (ri_mul I) with (L + (ri_mul I - L))%nat at 2 by lia.
    apply (ST_foldM_seq T A _ mul_J); [app|exact HJ1|].
    intros i s Hi Hs. apply ST_nth_k. intros li Hli.
    apply ST_nth_k. intros c1 H1. apply ST_nth_k. intros c0 H0. apply coeffs_nth in H0, H1. subst c0 c1.
    destruct (HC i ltac:(lia)) as (li' & Hli' & Ci). rewrite Hli in Hli'. injection Hli' as <-.
    stb swc_ST. intros u' Hu'. cbv beta in Hu'.
    eapply ST_weaken; [apply (mul_carry_ST u' (colv a b d i - lv rem i + pairv s + LIMB * borrow - borrow))|].
    - rewrite Hu'. unfold lin. cbn [fold_right fst snd opt0]. fold (v li) (v (fst s)) (v (snd s)).
      rewrite Ci. estrip. rewrite EB, ELN. unfold pairv. rewrite (lv_out I v rem i Lr) by lia.
      change (LIMB ^ Z.of_nat 0) with 1. change (LIMB ^ Z.of_nat 1) with (LIMB * 1). apply eqm_eq. ring.
    - assert (B := col_step (pairv s) i (proj1 Hs)). unfold borrow in *. pose proof LIMB_ge. lia.
    - intros y [E B]. eapply mul_J_step; eauto. lia. }
  { app. } { app. }
  intros v2 [_ HJ]. apply ST_ret.
  set (M := ri_mul I) in *.
  assert (K : lsum (fun i => colv a b d i - lv rem i) M ≡ 0 ⟨LIMB ^ Z.of_nat M⟩).
  { rewrite HJ. apply eqm_divide; [pose proof (LIMB_pow_pos M); lia|]. rewrite Z.sub_0_r.
    apply Z.divide_factor_l. }
  unfold colv in K. rewrite !lsum_sub in K.
  rewrite (conv_lsum (lv b) L (fun i => lv_out I v b i Lb) L (lv a) M (fun i => lv_out I v a i La)) in K.
  rewrite (conv_lsum (wd w I) L wd_out L (dl d) M (fun i => dl_out d i Ld)) in K.
  assert (ER : lsum (lv rem) M = val rem).
  { rewrite (val_lsum I) by auto. replace M with (L + (M - L))%nat by (unfold M; lia).
    generalize (M - L)%nat as e. induction e as [|e IHe]; [rewrite Nat.add_0_r; reflexivity|].
    rewrite Nat.add_succ_r. cbn [lsum]. rewrite IHe, (lv_out I v rem (L + e)%nat) by (auto; lia). ring. }
  rewrite ER, (wd_lsum w I IO w_prime), <- !(val_lsum I) in K by auto.
  rewrite lval_lsum, map_length, Ld. apply eqm_sub_0. rewrite <- K. apply eqm_eq. ring.
Qed.

Lemma mul_native_ST dn : v dn = lval (map v d) mod nmod ->
  ST T A (mul_equation_on_native I a b dn rem)
     (fun _ => val a * val b ≡ lval (map v d) * w + val rem ⟨nmod⟩).
Proof.
  intros Hd. unfold mul_equation_on_native. stb ST_one_line.
  intros x (off & -> & C0 & G & GB). cbn [copies fst snd pa pu] in C0. gsimp G.
  decompose [and] C0; clear C0. rwcopies. apply ST_ret.
  fold (v (i_native a)) (v (i_native b)) (v (i_native rem)) (v dn) in G.
  rewrite (wf_nat _ _ _ Wa), (wf_nat _ _ _ Wb), (wf_nat _ _ _ Wr), Hd, (io_w_native _ _ IO) in G.
  estrip_in G. eby G.
Qed.

(** The two equations together give the equality over the integers. *)
Lemma mul_exact :
  val a * val b ≡ lval (map v d) * w + val rem ⟨LIMB ^ Z.of_nat (ri_mul I)⟩ ->
  val a * val b ≡ lval (map v d) * w + val rem ⟨nmod⟩ ->
  0 <= lval (map v d) < 2 ^ ri_d_bits I ->
  val a * val b = lval (map v d) * w + val rem.
Proof.
  intros E1 E2 Hd. pose proof (wf_val _ _ _ Wa). pose proof (wf_val _ _ _ Wb). pose proof (wf_val _ _ _ Wr).
  pose proof (wf_t _ _ _ Wa). pose proof (wf_t _ _ _ Wb). rewrite Tr in *. pose proof (wb_pos w I IO) as WP.
  pose proof (w_pos w w_prime). pose proof (io_mul_lcm1 _ _ IO). pose proof (io_mul_lcm2 _ _ IO).
  apply (crt_eq nmod (LIMB ^ Z.of_nat (ri_mul I))); auto.
  - pose proof (n_pos n_prime). lia.
  - apply LIMB_pow_pos.
  - assert (val a <= 2 ^ wb * 63 - 1) by nia. assert (val b <= 2 ^ wb * 63 - 1) by nia. split; [nia|].
    eapply Z.le_lt_trans; [|apply (io_mul_lcm1 _ _ IO)]. apply Z.mul_le_mono_nonneg; lia.
  - split; [nia|]. eapply Z.le_lt_trans; [|apply (io_mul_lcm2 _ _ IO)]. nia.
Qed.
End MulEq.

(** The quotient limbs that [assign_d] range checks bound the product. *)
Lemma int_mul_full_ST a b : iwf a -> iwf b ->
  ST T A (int_mul I a b) (fun r => (iwf r /\ i_times r = 1 /\ val r ≡ val a * val b ⟨w⟩)
    /\ exists d, 0 <= d < 2 ^ (108 * (Z.of_nat L - 1) + ri_d_bits I mod 108) /\ val a * val b = d * w + val r).
Proof.
  intros Wa Wb. unfold int_mul. cbv zeta. stb assign_w_ST. intros rem [Wr Tr].
  stb assign_d_full_ST. intros d (Ld & Rd & Bd & Nd & Dd).
  eapply ST_bind; [apply (mul_limbs_ST a b rem (fst d)); auto|app|app|]. intros ? E1. cbv beta in E1.
  eapply ST_bind; [apply (mul_native_ST a b rem (fst d)); auto|app|app|]. intros ? E2. cbv beta in E2.
  assert (EQ : val a * val b = lval (map v (fst d)) * w + val rem) by (apply mul_exact; auto).
  apply ST_ret. split; [|exists (lval (map v (fst d))); split; [lia|exact EQ]].
  split; [auto|]. split; [auto|]. rewrite EQ.
  apply eqm_divide; [pose proof (w_pos w w_prime); lia|]. exists (- lval (map v (fst d))). ring.
Qed.
Lemma int_mul_ST a b : iwf a -> iwf b ->
  ST T A (int_mul I a b) (fun r => iwf r /\ i_times r = 1 /\ val r ≡ val a * val b ⟨w⟩).
Proof. intros Wa Wb. eapply ST_weaken; [apply int_mul_full_ST; auto|]. intros r [H _]. exact H. Qed.

(** ** Zero tests *)
Definition bitv (x : av) (P : Prop) : Prop := (v x = 0 \/ v x = 1) /\ (v x = 1 <-> P).

Lemma sum_range l : (forall i, 0 <= nth i (map v l) 0 < LIMB) -> (length l <= L)%nat ->
  0 <= fold_right (fun x acc => v x + acc) 0 l < nmod.
Proof.
  intros H HL. assert (K : 0 <= fold_right (fun x acc => v x + acc) 0 l <= Z.of_nat (length l) * LIMB).
  { clear HL. induction l as [|x l IH]; cbn [fold_right length]; [lia|].
    specialize (IH (fun i => H (S i))). pose proof (H 0%nat) as H0. cbn [map nth] in H0. lia. }
  pose proof L_small. pose proof LIMB_pos. nia.
Qed.
Lemma sum_zero l : (forall i, 0 <= nth i (map v l) 0 < LIMB) ->
  fold_right (fun x acc => v x + acc) 0 l = 0 <-> lval (map v l) = 0.
Proof.
  pose proof LIMB_pos.
  assert (NN : forall l, (forall i, 0 <= nth i (map v l) 0 < LIMB) ->
     0 <= fold_right (fun x acc => v x + acc) 0 l /\ 0 <= lval (map v l)).
  { clear l. induction l as [|x l IH]; intros H'; cbn [fold_right map lval]; [lia|].
    specialize (IH (fun i => H' (S i))). pose proof (H' 0%nat) as H0. cbn [map nth] in H0. nia. }
  induction l as [|x l IH]; intros H'; cbn [fold_right map lval]; [tauto|].
  specialize (IH (fun i => H' (S i))). pose proof (H' 0%nat) as H0. cbn [map nth] in H0.
  pose proof (NN l (fun i => H' (S i))). nia.
Qed.

Lemma lv1 a i : iwf a -> i_times a = 1 -> 0 <= lv a i < LIMB.
Proof. intros W E. pose proof (lv_range I v a i W) as R. rewrite E in R. lia. Qed.

Lemma is_pure_zero_ST a : iwf a -> i_times a = 1 ->
  ST T A (is_pure_zero a) (fun r => bitv r (val a = 0)).
Proof.
  intros Wa Ta. unfold is_pure_zero. stb swc_ST. intros s Hs. cbv beta in Hs.
  cbn [opt0] in Hs. rewrite Z.add_0_l in Hs. change (lin A) with (linf v) in Hs. rewrite linf_ones in Hs.
  apply v_exact in Hs; [|apply sum_range; [intros i; apply (lv1 a i Wa Ta)|rewrite (wf_len _ _ _ Wa); lia]].
  eapply ST_weaken; [apply is_zero_ST; auto|]. intros r [H1 H2]. split; [exact H1|].
  rewrite H2, Hs. apply sum_zero. intros i. apply (lv1 a i Wa Ta).
Qed.

Lemma bit_and x y r P Q : bitv x P -> bitv y Q -> v r ≡ v x * v y ⟨nmod⟩ -> bitv r (P /\ Q).
Proof.
  intros [X1 X2] [Y1 Y2] H. pose proof (n_pos n_prime).
  assert (E : v r = v x * v y) by (apply v_exact; [exact H|]; destruct X1 as [-> | ->], Y1 as [-> | ->]; lia).
  unfold bitv. rewrite E. destruct X1 as [X | X], Y1 as [Y | Y]; rewrite X, Y in *; rewrite <- X2, <- Y2; lia.
Qed.
Lemma bit_or x y r P Q : bitv x P -> bitv y Q -> v r ≡ v x + v y - v x * v y ⟨nmod⟩ -> bitv r (P \/ Q).
Proof.
  intros [X1 X2] [Y1 Y2] H. pose proof (n_pos n_prime).
  assert (E : v r = v x + v y - v x * v y) by (apply v_exact; [exact H|]; destruct X1 as [-> | ->], Y1 as [-> | ->]; lia).
  unfold bitv. rewrite E. destruct X1 as [X | X], Y1 as [Y | Y]; rewrite X, Y in *; rewrite <- X2, <- Y2; lia.
Qed.
Lemma bitv_iff x P Q : bitv x P -> (P <-> Q) -> bitv x Q.
Proof. intros [H1 H2] E. split; [auto|]. rewrite H2. exact E. Qed.

Lemma is_pure_w_ST a : iwf a ->
  ST T A (is_pure_w_modulus I a) (fun r => bitv r (val a = w)).
Proof.
  intros Wa. unfold is_pure_w_modulus. apply ST_assert_k. intros Ta. apply Z.eqb_eq in Ta.
  stb add_constant_ST. intros nd Hnd. cbv beta in Hnd.
  pose proof (n_pos n_prime) as NP.
  eapply ST_bind; [apply is_zero_ST; auto|app|app|]. intros e0 He0. cbv beta in He0.
  assert (B0 : bitv e0 (val a ≡ w ⟨nmod⟩)).
  { destruct He0 as [H1 H2]. split; [exact H1|]. rewrite H2.
    assert (EN : v nd ≡ val a - w ⟨nmod⟩).
    { rewrite Hnd, (wf_nat _ _ _ Wa), (io_w_native _ _ IO). estrip. reflexivity. }
    split; intros K.
    - apply eqm_sub_0. rewrite <- EN, K. reflexivity.
    - apply v_exact; [|lia]. rewrite EN. apply eqm_sub_0 in K. exact K. }
  pose proof (io_pure_L _ _ IO) as HP.
  eapply ST_weaken.
  - apply (ST_foldM_seq T A _ (fun k e => bitv e (val a ≡ w ⟨nmod⟩ /\ forall i, (i < k)%nat -> lv a i = wd w I i))).
    + app.
    + eapply bitv_iff; [exact B0|]. split; [intros K; split; [exact K|intros; lia]|tauto].
    + intros i s Hi Hs. apply ST_nth_k. intros ai Hai. apply ST_nth_k. intros wi Hwi.
      destruct (wl_nth w I IO _ _ Hwi) as [_ ->]. apply (lv_nth v) in Hai.
      stb add_constant_ST. intros ld Hld. cbv beta in Hld.
      eapply ST_bind; [apply is_zero_ST; auto|app|app|]. intros e He. cbv beta in He.
      eapply ST_weaken; [apply and_ST|]. intros r Hr. cbv beta in Hr.
      assert (B : bitv e (lv a i = wd w I i)).
      { destruct He as [H1 H2]. split; [exact H1|]. rewrite H2.
        rewrite Hai in Hld. pose proof (lv1 a i Wa Ta) as R1. pose proof (wd_range w I i) as R2.
        split; intros K.
        - apply (eqm_small nmod); [|lia|lia]. apply eqm_sub_0. transitivity (v ld); [|rewrite K; reflexivity].
          rewrite Hld. estrip. apply eqm_eq. ring.
        - apply v_exact; [|lia]. rewrite Hld, K. estrip. apply eqm_eq. ring. }
      eapply bitv_iff; [apply (bit_and s e r _ _ Hs B Hr)|].
      split.
      * intros [[K1 K2] K3]. split; [auto|]. intros j Hj. destruct (Nat.eq_dec j i) as [->|]; [auto|apply K2; lia].
      * intros [K1 K2]. split; [split; [auto|intros; apply K2; lia]|apply K2; lia].
  - intros r Hr. eapply bitv_iff; [exact Hr|]. cbn [Nat.add]. split.
    + intros [K1 K2]. pose proof (wf_val _ _ _ Wa) as VA. rewrite Ta, Z.mul_1_l in VA.
      pose proof (w_lt w I IO w_prime). pose proof (w_pos w w_prime). pose proof (io_pure _ _ IO).
      apply (crt_eq nmod (LIMB ^ Z.of_nat (ri_pure I))); [lia|apply LIMB_pow_pos|exact K1| |lia|lia].
      rewrite (val_lsum I) by (eapply wf_len; eauto).
      transitivity (lsum (wd w I) L); [|rewrite (wd_lsum w I IO w_prime); reflexivity].
      rewrite (lsum_mod (lv a) _ _ HP). rewrite (lsum_mod (wd w I) _ _ HP).
      apply eqm_eq. apply lsum_ext. exact K2.
    + intros K. split; [rewrite K; reflexivity|]. intros i Hi.
      apply (lsum_eq_digits (lv a) (wd w I) L).
      * intros j _. apply (lv1 a j Wa Ta).
      * intros j _. apply (wd_range w I).
      * rewrite (wd_lsum w I IO w_prime), <- (val_lsum I) by (eapply wf_len; eauto). exact K.
      * lia.
Qed.

(** A reduced representative divisible by w is 0 or w. *)
Lemma reduced_zero a : iwf a -> i_times a = 1 -> (val a = 0 \/ val a = w) <-> val a ≡ 0 ⟨w⟩.
Proof.
  intros Wa Ta. pose proof (wf_val _ _ _ Wa) as VA. rewrite Ta, Z.mul_1_l in VA.
  pose proof (w_2 w I IO). pose proof (w_pos w w_prime). split.
  - intros [-> | ->]; [reflexivity|apply eqm_modulus].
  - intros H1. apply eqm_divide in H1; [|lia]. rewrite Z.sub_0_r in H1. destruct H1 as [q Hq].
    assert (q = 0 \/ q = 1) as [-> | ->] by nia; [left|right]; lia.
Qed.

Lemma is_int_zero_ST a : (i_times a <= 63 -> iwf a) ->
  ST T A (is_int_zero I a) (fun r => bitv r (val a ≡ 0 ⟨w⟩)).
Proof.
  intros Wa. unfold is_int_zero. eapply ST_bind; [apply reduce_ST; exact Wa|app|app|].
  intros a1 (W1 & T1 & V1).
  eapply ST_bind; [apply is_pure_zero_ST; auto|app|app|]. intros z Hz. cbv beta in Hz.
  eapply ST_bind; [apply is_pure_w_ST; auto|app|app|]. intros m Hm. cbv beta in Hm.
  eapply ST_weaken; [apply or_ST|]. intros r Hr. cbv beta in Hr.
  eapply bitv_iff; [apply (bit_or z m r _ _ Hz Hm Hr)|].
  rewrite (reduced_zero a1 W1 T1). rewrite V1. reflexivity.
Qed.

Lemma is_int_equal_ST a b : iwf a -> iwf b ->
  ST T A (is_int_equal I a b) (fun r => bitv r (val a ≡ val b ⟨w⟩)).
Proof.
  intros Wa Wb. unfold is_int_equal. eapply ST_bind; [apply int_sub_ST; auto|app|app|].
  intros d (Wd & _ & Vd). eapply ST_weaken; [apply is_int_zero_ST; auto|]. intros r Hr.
  eapply bitv_iff; [exact Hr|]. rewrite Vd. symmetry. apply eqm_sub_0.
Qed.

Lemma assert_int_equal_ST a b : iwf a -> iwf b ->
  ST T A (assert_int_equal I a b) (fun _ => val a ≡ val b ⟨w⟩).
Proof.
  intros Wa Wb. unfold assert_int_equal. eapply ST_bind; [apply int_sub_ST; auto|app|app|].
  intros d (Wd & _ & Vd). eapply ST_bind; [apply reduce_ST; auto|app|app|].
  intros r (Wr & Tr & Vr). stb swc_ST. intros s Hs. cbv beta in Hs.
  cbn [opt0] in Hs. rewrite Z.add_0_l in Hs. change (lin A) with (linf v) in Hs. rewrite linf_ones in Hs.
  apply v_exact in Hs; [|apply sum_range; [intros i; apply (lv1 r i Wr Tr)|rewrite (wf_len _ _ _ Wr); lia]].
  eapply ST_weaken; [apply assert_constant_ST|]. intros ? H0. cbv beta in H0.
  pose proof (n_pos n_prime). apply v_exact in H0; [|lia]. rewrite Hs in H0.
  apply sum_zero in H0; [|intros i; apply (lv1 r i Wr Tr)].
  fold (val r) in H0. apply eqm_sub_0. rewrite <- Vd, <- Vr, H0. reflexivity.
Qed.

(** ** Constants and division *)
Lemma assign_int_constant_ST x : 0 <= x < w ->
  ST T A (assign_int_constant I x) (fun r => iwf r /\ i_times r = 1 /\ val r = x).
Proof.
  intros Hx. unfold assign_int_constant. pose proof (w_lt w I IO w_prime). pose proof (io_L3 _ _ IO).
  pose proof (io_wb1 _ _ IO) as WB1. pose proof (L_cover w I IO) as LC. pose proof LIMB_pos.
  assert (XL : 0 <= x < LIMB ^ Z.of_nat L).
  { rewrite LIMB_pow by lia. assert (2 ^ wb <= 2 ^ (Z.of_nat L * 108)) by (apply Z.pow_le_mono_r; lia). lia. }
  assert (E : bn_to_limb_le_n L x = map (fun i => fof (limb_at x i)) (seq 0 L)).
  { unfold bn_to_limb_le_n, bn_to_limb_le. apply map_map. }
  eapply ST_bind with (Q := fun ls => length ls = L /\ forall i, (i < L)%nat ->
      exists y, nth_error ls i = Some y /\ v y = limb_at x i).
  - rewrite E. eapply ST_weaken.
    + apply (ST_mapM T A _ _ (fun k r => v r ≡ k ⟨nmod⟩)); [app|]. intros k _. apply assign_constant_ST.
    + intros ls HF. split.
      * apply Forall2_length in HF. rewrite map_length, seq_length in HF. auto.
      * intros i Hi.
        assert (K : nth_error (map (fun i => fof (limb_at x i)) (seq 0 L)) i = Some (fof (limb_at x i)))
          by (apply (nth_error_map_seq (fun i => fof (limb_at x i))); auto).
        destruct (Forall2_nth_error_l _ _ _ HF _ _ K) as (y & Hy & Q). exists y. split; [exact Hy|].
        apply v_exact; [rewrite Q; apply mod_eqm|]. pose proof (limb_at_range x i). lia.
  - app.
  - app.
  - intros ls HL. stb assign_constant_ST. intros nt Hn. cbv beta in Hn. apply ST_ret.
    assert (LN := limbs_of v _ ls L HL). assert (LV := lval_of v _ ls L HL).
    assert (LX : lsum (limb_at x) L = x).
    { rewrite <- (lval_limbs L x XL) at 2. rewrite lval_lsum, bn_to_limb_le_length.
      apply lsum_ext. intros i Hi. unfold bn_to_limb_le. rewrite nth_map_seq by auto. reflexivity. }
    rewrite LX in LV. split; [|split; [reflexivity|exact LV]].
    constructor; unfold IntInv.lv, IntInv.val; cbn [i_limbs i_times i_native]; rewrite ?Z.mul_1_l.
    + apply HL.
    + lia.
    + intros i Hi. rewrite LN by lia. apply limb_at_range.
    + rewrite LN by lia. apply lead_limb with (w := w); auto. lia.
    + rewrite LV. lia.
    + rewrite LV. apply eqm_mod_intro; [|apply v_range]. rewrite Hn. estrip. reflexivity.
Qed.

Lemma int_div_ST a b : iwf a -> iwf b ->
  ST T A (int_div I a b) (fun r => bitv (fst r) (val b ≡ 0 ⟨w⟩) /\ iwf (snd r) /\ i_times (snd r) = 1
     /\ (~ val b ≡ 0 ⟨w⟩ -> val b * val (snd r) ≡ val a ⟨w⟩)
     /\ (val b ≡ 0 ⟨w⟩ -> val b * val (snd r) ≡ 0 ⟨w⟩)).
Proof.
  intros Wa Wb. unfold int_div. eapply ST_bind; [apply reduce_ST; auto|app|app|].
  intros b1 (Wb1 & Tb1 & Vb1). eapply ST_bind; [apply is_int_zero_ST; auto|app|app|].
  intros z Hz. cbv beta in Hz.
  stb not_ST. intros k Hk. cbv beta in Hk.
  assert (Bk : v k = 1 - v z).
  { apply v_exact; [exact Hk|]. pose proof (n_pos n_prime). destruct Hz as [[-> | ->] _]; lia. }
  eapply ST_bind; [apply reduce_ST; auto|app|app|]. intros a1 (Wa1 & Ta1 & Va1).
  assert (K01 : v k = 0 \/ v k = 1) by (destruct Hz as [[E|E] _]; lia).
  assert (MS : forall x, ST T A (mul x k) (fun r => v r = v k * v x)).
  { intros x. eapply ST_weaken; [apply mul_ST|]. intros r Hr. cbv beta in Hr. apply v_exact.
    - rewrite Hr. apply eqm_eq. ring.
    - pose proof (v_range x). destruct K01 as [-> | ->]; lia. }
  eapply ST_bind.
  { apply (ST_mapM_seq T A _ (fun i r => v r = v k * lv a1 i)); [app|].
    intros i Hi. apply ST_nth_k. intros x Hx. rewrite <- (lv_nth v _ _ _ Hx). apply MS. }
  { app. } { app. }
  intros ls HL. cbn [Nat.add] in HL. stb MS. intros nt Hn. cbv beta in Hn. cbv zeta.
  assert (LN := limbs_of v _ ls L HL). assert (LV := lval_of v _ ls L HL).
  pose proof (io_L3 _ _ IO) as H3. rewrite lsum_scale, <- (val_lsum I) in LV by (eapply wf_len; eauto).
  set (a' := mkInt ls nt (i_times a1)).
  assert (Wa' : iwf a').
  { pose proof LIMB_pos. pose proof (wb_pos w I IO).
    assert (0 < 2 ^ (wb mod 108)) by (apply Z.pow_pos_nonneg; [lia|apply Z.mod_pos_bound; lia]).
    constructor; unfold IntInv.lv, IntInv.val, a'; cbn [i_limbs i_times i_native]; rewrite ?Ta1.
    - apply HL.
    - lia.
    - intros i Hi. rewrite LN by lia. pose proof (wf_low _ _ _ Wa1 i Hi) as R. rewrite Ta1 in R.
      destruct K01 as [-> | ->]; lia.
    - rewrite LN by lia. pose proof (wf_lead _ _ _ Wa1) as R. rewrite Ta1 in R. destruct K01 as [-> | ->]; lia.
    - rewrite LV. pose proof (wf_val _ _ _ Wa1) as R. rewrite Ta1 in R. destruct K01 as [-> | ->]; lia.
    - rewrite LV, Hn, (wf_nat _ _ _ Wa1). destruct K01 as [-> | ->]; rewrite ?Z.mul_0_l, ?Z.mul_1_l; reflexivity. }
  apply ST_assert_k. intros _.
  stb assign_w_ST. intros c [Wc Tc]. stb assign_d_ST. intros d (Ld & Rd & Bd & Nd).
  eapply ST_bind; [apply (mul_limbs_ST b1 c a' (fst d)); auto|app|app|]. intros ? E1. cbv beta in E1.
  eapply ST_bind; [apply (mul_native_ST b1 c a' (fst d)); auto|app|app|]. intros ? E2. cbv beta in E2.
  apply ST_ret. cbn [fst snd].
  assert (EQ : val b1 * val c = lval (map v (fst d)) * w + val a') by (apply mul_exact; auto).
  assert (EQM : val b * val c ≡ v k * val a ⟨w⟩).
  { assert (VA' : val a' = v k * val a1) by exact LV.
    rewrite <- Vb1, EQ, VA', Va1.
    apply eqm_divide; [pose proof (w_pos w w_prime); lia|]. exists (lval (map v (fst d))). ring. }
  assert (Hz' : bitv z (val b ≡ 0 ⟨w⟩)) by (eapply bitv_iff; [exact Hz|]; rewrite Vb1; reflexivity).
  split; [exact Hz'|]. split; [auto|]. split; [auto|]. destruct Hz' as [H1 H2]. split.
  - intros NZ. rewrite EQM. replace (v k) with 1 by (destruct H1 as [E|E]; [lia|tauto]). apply eqm_eq. ring.
  - intros Z0. rewrite Z0. reflexivity.
Qed.

Lemma int_unsafe_invert_ST x : iwf x ->
  ST T A (int_unsafe_invert I x) (fun r => iwf r /\ i_times r = 1 /\ val x * val r ≡ 1 ⟨w⟩).
Proof.
  intros Wx. unfold int_unsafe_invert. pose proof (w_pos w w_prime).
  eapply ST_bind; [apply (assign_int_constant_ST 1); lia|app|app|]. intros one (W1 & _ & V1).
  eapply ST_bind; [apply int_div_ST; auto|app|app|]. intros [z r] (Hz & Wr & Tr & HQ & _). cbn [fst snd] in *.
  stb assert_false_ST. intros ? H0. cbv beta in H0. apply ST_ret. split; [auto|]. split; [auto|].
  pose proof (n_pos n_prime). apply v_exact in H0; [|lia].
  rewrite HQ, V1; [reflexivity|]. destruct Hz as [_ Hz]. rewrite <- Hz. lia.
Qed.
End Sound.
