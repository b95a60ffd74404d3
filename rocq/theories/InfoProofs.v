(** Facts that a successful [range_info_new] establishes. *)
From Verif Require Import Prelude FieldZ Circuit RangeInfo ModArith.

(** Value of a list of limbs, least significant first. *)
Fixpoint lval (l : list Z) : Z :=
  match l with [] => 0 | x :: l' => x + LIMB * lval l' end.

Lemma LIMB_pos : 0 < LIMB.
Proof. reflexivity. Qed.
Lemma LIMB_eq : LIMB = 2 ^ 108.
Proof. reflexivity. Qed.

Lemma lval_app a b : lval (a ++ b) = lval a + LIMB ^ Z.of_nat (length a) * lval b.
Proof.
  induction a as [|x a IH]; cbn [app lval length].
  - change (LIMB ^ Z.of_nat 0) with 1. ring.
  - rewrite IH, Nat2Z.inj_succ, Z.pow_succ_r by lia. ring.
Qed.
Lemma lval_nonneg l : Forall (fun x => 0 <= x) l -> 0 <= lval l.
Proof. pose proof LIMB_pos. induction 1; cbn [lval]; nia. Qed.
Lemma lval_bound l : Forall (fun x => 0 <= x < LIMB) l ->
  0 <= lval l < LIMB ^ Z.of_nat (length l).
Proof.
  pose proof LIMB_pos. induction 1 as [|x l Hx _ IH]; cbn [lval length].
  - change (LIMB ^ Z.of_nat 0) with 1. lia.
  - rewrite Nat2Z.inj_succ, Z.pow_succ_r by lia. nia.
Qed.

Lemma limb_at_spec x i : limb_at x i = (x / LIMB ^ Z.of_nat i) mod LIMB.
Proof.
  unfold limb_at, LIMB_MASK, LIMB_BITS. change (2 ^ 108 - 1) with (Z.ones 108).
  rewrite Z.land_ones, Z.shiftr_div_pow2 by lia. rewrite LIMB_eq, <- Z.pow_mul_r by lia.
  rewrite Z.mul_comm. reflexivity.
Qed.
Lemma limb_at_range x i : 0 <= limb_at x i < LIMB.
Proof. rewrite limb_at_spec. apply Z.mod_pos_bound. apply LIMB_pos. Qed.

Lemma bn_to_limb_le_length k x : length (bn_to_limb_le k x) = k.
Proof. unfold bn_to_limb_le. rewrite map_length, seq_length. reflexivity. Qed.

Lemma limbs_from x : forall k s, 0 <= x ->
  lval (map (limb_at x) (seq s k)) = (x / LIMB ^ Z.of_nat s) mod LIMB ^ Z.of_nat k.
Proof.
  pose proof LIMB_pos as LP. induction k as [|k IH]; intros s Hx; cbn [seq map lval].
  - change (LIMB ^ Z.of_nat 0) with 1. rewrite Z.mod_1_r. reflexivity.
  - rewrite IH by auto. rewrite limb_at_spec, !Nat2Z.inj_succ, !Z.pow_succ_r by lia.
    assert (0 < LIMB ^ Z.of_nat s) by (apply Z.pow_pos_nonneg; lia).
    assert (0 < LIMB ^ Z.of_nat k) by (apply Z.pow_pos_nonneg; lia).
    rewrite Z.rem_mul_r by lia. rewrite Z.div_div by lia.
    rewrite (Z.mul_comm (LIMB ^ Z.of_nat s) LIMB). reflexivity.
Qed.
Lemma lval_limbs k x : 0 <= x < LIMB ^ Z.of_nat k -> lval (bn_to_limb_le k x) = x.
Proof.
  intros H. unfold bn_to_limb_le. rewrite limbs_from by lia.
  change (LIMB ^ Z.of_nat 0) with 1. rewrite Z.div_1_r, Z.mod_small; auto.
Qed.

Lemma nth_map_seq {X} (f : nat -> X) k i d : (i < k)%nat -> nth i (map f (seq 0 k)) d = f i.
Proof.
  intros H. rewrite (nth_indep _ d (f 0%nat)) by (rewrite map_length, seq_length; auto).
  rewrite map_nth, seq_nth by auto. reflexivity.
Qed.
Lemma nth_error_map_seq {X} (f : nat -> X) k i : (i < k)%nat ->
  nth_error (map f (seq 0 k)) i = Some (f i).
Proof.
  intros H. rewrite nth_error_map. rewrite (nth_error_nth' (seq 0 k) 0%nat) by (rewrite seq_length; auto).
  rewrite seq_nth by auto. reflexivity.
Qed.

(** ** Inverting the panic monad *)
Lemma res_bind_inv {X Y} (m : res X) (k : X -> res Y) y :
  res_bind m k = Ok y -> exists x, m = Ok x /\ k x = Ok y.
Proof. destruct m; simpl; [eauto|discriminate]. Qed.
Lemma res_assert_inv b u : res_assert b = Ok u -> b = true.
Proof. destruct b; [auto|discriminate]. Qed.
Lemma Ok_inj {X} (a b : X) : Ok a = Ok b -> a = b.
Proof. congruence. Qed.
Ltac rinv H :=
  repeat match type of H with
  | res_bind (res_assert _) _ = Ok _ =>
      let x := fresh "u" in let H1 := fresh "C" in
      apply res_bind_inv in H as (x & H1 & H); apply res_assert_inv in H1; clear x
  | res_bind _ _ = Ok _ =>
      let x := fresh "r" in let H1 := fresh "R" in
      apply res_bind_inv in H as (x & H1 & H)
  end.

Lemma bits_to_leading_inv b r : bits_to_leading b = Ok r -> 0 <= b ->
  (b mod 108 = 0 \/ 36 <= b mod 108 < 108)
  /\ let lead := if b mod 108 =? 0 then 108 else b mod 108 in
     lead <= 18 * snd r < lead + 18.
Proof.
  unfold bits_to_leading, LIMB_BITS, COMMON_RANGE_BITS, RANGE_VALUE_DECOMPOSE. intros H Hb. rinv H.
  pose proof (Z.mod_pos_bound b 108 ltac:(lia)).
  set (lead := if b mod 108 =? 0 then 108 else b mod 108) in *.
  assert (E : b mod 108 = 0 \/ (lead = b mod 108 /\ b mod 108 <> 0)).
  { unfold lead. destruct (Z.eqb_spec (b mod 108) 0); auto. }
  split; [lia|]. cbv zeta. pose proof (Z.div_mod lead 18 ltac:(lia)).
  pose proof (Z.mod_pos_bound lead 18 ltac:(lia)).
  destruct (Z.eqb_spec (lead mod 18) 0); injection H as <-; cbn [snd]; lia.
Qed.

Section Info.
Context {NM : NMod}.

(** What [find_w_modulus_of_ceil_times] guarantees about its limbs, seen as
    integers. *)
Record pad_spec (limbs : nat) (w wb t : Z) (us : list Z) : Prop := {
  ps_len : length us = limbs;
  ps_mult : (w | lval us);
  ps_lo : 2 ^ wb * t <= lval us;
  ps_hi : lval us < 2 ^ wb * t + w;
  ps_low : forall i, (i < limbs - 1)%nat -> LIMB * t <= nth i us 0 < LIMB * (t + 1);
  ps_lead : 2 ^ (wb mod 108) * t <= nth (limbs - 1) us 0 < 2 ^ (wb mod 108) * (t + 1)
}.

Lemma pad_loop_inv t : forall k upper ls top,
  0 <= upper -> 0 <= t ->
  pad_loop k t upper = Ok (ls, top) ->
  exists us, ls = map fof us /\ length us = k /\ lval us + LIMB ^ Z.of_nat k * top = upper
    /\ Forall (fun u => LIMB * t <= u < LIMB * (t + 1)) us /\ 0 <= top.
Proof.
  pose proof LIMB_pos as LP.
  induction k as [|k IH]; intros upper ls top Hu Ht H; cbn [pad_loop] in H.
  - injection H as <- <-. exists []. split; [reflexivity|]. split; [reflexivity|]. split; [|auto].
    cbn [lval]. change (LIMB ^ Z.of_nat 0) with 1. ring.
  - set (rem := Z.land upper LIMB_MASK + LIMB * t) in *. rinv H.
    destruct r as [ls' top']. cbn [fst snd] in H. injection H as <- <-.
    assert (RM : rem = upper mod LIMB + LIMB * t).
    { unfold rem, LIMB_MASK. change (2 ^ 108 - 1) with (Z.ones 108). rewrite Z.land_ones by lia. reflexivity. }
    assert (SH : Z.shiftr (upper - rem) LIMB_BITS = (upper - rem) / LIMB).
    { unfold LIMB_BITS. rewrite Z.shiftr_div_pow2 by lia. reflexivity. }
    rewrite SH in R. pose proof (Z.mod_pos_bound upper LIMB LP).
    pose proof (Z.div_mod upper LIMB ltac:(lia)).
    assert (DV : (upper - rem) / LIMB = upper / LIMB - t).
    { rewrite RM. symmetry. apply (Z.div_unique _ _ _ 0); lia. }
    assert (0 <= (upper - rem) / LIMB) by (apply Z.div_pos; lia).
    apply IH in R; [|lia|lia]. destruct R as (us & -> & L & V & F & TP).
    exists (rem :: us). split; [reflexivity|]. split; [cbn [length]; lia|].
    split; [|split; [constructor; [lia|exact F]|exact TP]].
    cbn [lval length]. rewrite Nat2Z.inj_succ, Z.pow_succ_r by lia.
    rewrite DV in V. rewrite RM. nia.
Qed.

Lemma find_pad_inv limbs w wb t ls : (1 <= limbs)%nat -> 0 < w -> 0 <= wb -> 0 <= t ->
  find_w_modulus_of_ceil_times limbs w wb t = Ok ls ->
  exists us, ls = map fof us /\ pad_spec limbs w wb t us.
Proof.
  intros HL Hw Hwb Ht H. unfold find_w_modulus_of_ceil_times in H. cbv zeta in H.
  set (mx := 2 ^ wb * t) in *.
  set (n := if 0 <? mx mod w then mx / w + 1 else mx / w) in *.
  assert (0 < 2 ^ wb) by (apply Z.pow_pos_nonneg; lia).
  assert (0 <= mx) by (unfold mx; nia).
  assert (N : mx <= w * n < mx + w).
  { unfold n. pose proof (Z.div_mod mx w ltac:(lia)). pose proof (Z.mod_pos_bound mx w Hw).
    destruct (Z.ltb_spec 0 (mx mod w)); nia. }
  rinv H. destruct r as [l top]. cbn [fst snd] in *. injection H as <-.
  apply pad_loop_inv in R; [|lia|lia]. destruct R as (us & -> & L & V & F & TP).
  exists (us ++ [top]). split; [rewrite map_app; reflexivity|].
  assert (LV : lval (us ++ [top]) = w * n).
  { rewrite lval_app. cbn [lval]. rewrite L. rewrite <- V. ring. }
  unfold LIMB_BITS in *. constructor.
  - rewrite app_length. cbn [length]. lia.
  - rewrite LV. exists n. ring.
  - rewrite LV. lia.
  - rewrite LV. lia.
  - intros i Hi. rewrite app_nth1 by lia. rewrite Forall_forall in F. apply F. apply nth_In. lia.
  - rewrite app_nth2 by lia. replace (limbs - 1 - length us)%nat with 0%nat by lia. cbn [nth]. lia.
Qed.

Lemma res_map_inv {X Y} (f : X -> res Y) l ys : res_map f l = Ok ys ->
  length ys = length l /\
  forall i x, nth_error l i = Some x -> exists y, nth_error ys i = Some y /\ f x = Ok y.
Proof.
  revert ys; induction l as [|x l IH]; intros ys H; cbn [res_map] in H.
  - injection H as <-. split; [reflexivity|]. intros [|]; discriminate.
  - rinv H. injection H as <-. apply IH in R0 as [L G]. split; [cbn [length]; lia|].
    intros [|i] z Hz; cbn [nth_error] in *; [injection Hz as <-; eauto|auto].
Qed.

Record info_ok (w : Z) (I : rinfo) : Prop := {
  io_w : ri_w I = w;
  io_wb : ri_w_ceil_bits I = bits (w - 1);
  io_wb1 : 1 <= ri_w_ceil_bits I;
  io_wceil : ri_w_ceil I = 2 ^ ri_w_ceil_bits I;
  io_wlo : 2 ^ (ri_w_ceil_bits I - 1) <= w - 1;
  io_whi : w - 1 < 2 ^ ri_w_ceil_bits I;
  io_limbs : Z.of_nat (ri_limbs I) = (ri_w_ceil_bits I + 107) / 108;
  io_L3 : (3 <= ri_limbs I)%nat;
  io_wl_bn : ri_w_limbs_bn I = bn_to_limb_le (ri_limbs I) w;
  io_wl : ri_w_limbs I = map fof (bn_to_limb_le (ri_limbs I) w);
  io_coeffs : ri_coeffs I = map (fun i => fof (LIMB ^ Z.of_nat i)) (seq 0 (ri_limbs I));
  io_limb_n : ri_limb_n I = fof LIMB;
  io_w_native : ri_w_native I = fof w;
  io_lead : ri_w_ceil_bits I mod 108 = 0 \/ 36 <= ri_w_ceil_bits I mod 108 < 108;
  io_wdec : let lead := if ri_w_ceil_bits I mod 108 =? 0 then 108 else ri_w_ceil_bits I mod 108 in
            lead <= 18 * Z.of_nat (ri_w_decompose I) < lead + 18;
  io_dbits : ri_d_bits I = ri_w_ceil_bits I + 13;
  io_dlead : ri_d_bits I mod 108 = 0 \/ 36 <= ri_d_bits I mod 108 < 108;
  io_ddec : let lead := if ri_d_bits I mod 108 =? 0 then 108 else ri_d_bits I mod 108 in
            lead <= 18 * Z.of_nat (ri_d_decompose I) < lead + 18;
  io_pad_len : length (ri_pad I) = 64%nat;
  io_pad0 : nth_error (ri_pad I) 0 = Some None;
  io_pad : forall t, 1 <= t <= 63 -> exists us,
     nth_error (ri_pad I) (Z.to_nat t) = Some (Some (map fof us))
     /\ pad_spec (ri_limbs I) w (ri_w_ceil_bits I) t us;
  (* the pre_check inequalities *)
  io_maxw : Forall (fun x => 0 <= x <= fold_right Z.max 0 (ri_w_limbs_bn I)) (ri_w_limbs_bn I);
  io_pure : 2 ^ ri_w_ceil_bits I <= Z.lcm nmod (LIMB ^ Z.of_nat (ri_pure I));
  io_red_a : 2 ^ ri_w_ceil_bits I * 63 - 1 <= (2 ^ 18 - 1) * w;
  io_red_lcm : (2 ^ 18 - 1) * w + 2 ^ ri_w_ceil_bits I <= Z.lcm nmod (LIMB ^ Z.of_nat (ri_reduce I));
  io_red_v : (2 ^ 18 - 1) * fold_right Z.max 0 (ri_w_limbs_bn I) + (LIMB - 1) + (LIMB - 1) + 64 * LIMB
             <= (LIMB - 1) * LIMB;
  io_red_vn : (LIMB - 1) * LIMB < nmod;
  io_red_n : (2 ^ 18 - 1) * fold_right Z.max 0 (ri_w_limbs_bn I) + (LIMB - 1) + (LIMB - 1) + 64 * LIMB
             < nmod;
  io_mul_a : (2 ^ ri_w_ceil_bits I * 63 - 1) * (2 ^ ri_w_ceil_bits I * 63 - 1)
             <= (2 ^ ri_d_bits I - 1) * w;
  io_mul_lcm1 : (2 ^ ri_w_ceil_bits I * 63 - 1) * (2 ^ ri_w_ceil_bits I * 63 - 1)
             < Z.lcm nmod (LIMB ^ Z.of_nat (ri_mul I));
  io_mul_lcm2 : (2 ^ ri_d_bits I - 1) * w + (2 ^ ri_w_ceil_bits I - 1)
             < Z.lcm nmod (LIMB ^ Z.of_nat (ri_mul I));
  io_mul_borrow : Z.of_nat (ri_limbs I) * (LIMB - 1) * fold_right Z.max 0 (ri_w_limbs_bn I) + (LIMB - 1)
             <= (Z.of_nat (ri_limbs I) * LIMB + 2) * LIMB - (Z.of_nat (ri_limbs I) * LIMB + 2);
  io_mul_v : LIMB * 63 * (LIMB * 63) * Z.of_nat (ri_limbs I)
             + LIMB * (Z.of_nat (ri_limbs I) * LIMB + 2) <= (LIMB * 2 ^ 18 - 1) * LIMB;
  io_mul_n : (LIMB * 2 ^ 18 - 1) * LIMB < nmod;
  (* loop bounds *)
  io_pure_L : (ri_pure I <= ri_limbs I)%nat;
  io_red_L : (1 <= ri_reduce I <= ri_limbs I)%nat;
  io_mul_L : (ri_limbs I <= ri_mul I < 2 * ri_limbs I)%nat
}.

Lemma max_ge l : Forall (fun x => 0 <= x) l -> Forall (fun x => 0 <= x <= fold_right Z.max 0 l) l.
Proof.
  induction 1 as [|x l Hx _ IH]; constructor.
  - cbn [fold_right]. lia.
  - cbn [fold_right]. eapply Forall_impl; [|exact IH]. intros y Hy. cbv beta in Hy. lia.
Qed.

Lemma range_info_ok w I : range_info_new w = Ok I -> info_ok w I.
Proof.
  intros H. unfold range_info_new in H. cbv zeta in H.
  set (wb := bits (w - 1)) in *. rinv H.
  apply Ok_inj in H. subst I.
  match goal with |- context [mkRI ?l _ _ _ _ _ _ _ _ _ _ _ ?a ?b ?c _] =>
    set (kp := a) in *; set (kr := b) in *; set (km := c) in *;
    assert (KB : 128 <= bits (nmod - 1) ->
       (kp <= l)%nat /\ (1 <= kr <= l)%nat /\ (l <= km < 2 * l)%nat) end.
  { unfold d_bits_of in R1. cbv zeta in R1. fold wb in R1. rinv R1. injection R1 as <-.
    set (nb := bits (nmod - 1)) in *. clearbody nb.
    unfold kp, kr, km, LIMB_BITS, OVERFLOW_BITS, COMMON_RANGE_BITS in *. clear -C0 C5. intros NB.
    change (6 * 2) with 12 in *.
    rewrite (Z.max_r (wb + 6) (18 + wb)) by lia.
    rewrite (Z.max_r (wb * 2 + 12) (wb + 12 + 1 + wb)) by lia.
    pose proof (Z.div_mod (wb + 108 - 1) 108 ltac:(lia)).
    pose proof (Z.mod_pos_bound (wb + 108 - 1) 108 ltac:(lia)).
    pose proof (Z.div_mod (wb - (nb - 1) + 108 - 1) 108 ltac:(lia)).
    pose proof (Z.mod_pos_bound (wb - (nb - 1) + 108 - 1) 108 ltac:(lia)).
    pose proof (Z.div_mod (18 + wb - (nb - 1) + 108 - 1) 108 ltac:(lia)).
    pose proof (Z.mod_pos_bound (18 + wb - (nb - 1) + 108 - 1) 108 ltac:(lia)).
    pose proof (Z.div_mod (wb + 12 + 1 + wb - (nb - 1) + 108 - 1) 108 ltac:(lia)).
    pose proof (Z.mod_pos_bound (wb + 12 + 1 + wb - (nb - 1) + 108 - 1) 108 ltac:(lia)).
    lia. }
  clearbody kp kr km.
  unfold pre_check in R4. cbv zeta in R4. cbn [ri_limbs ri_w_decompose ri_d_decompose ri_w_ceil_bits
    ri_d_bits ri_w_ceil ri_w ri_w_limbs_bn ri_w_limbs ri_coeffs ri_limb_n ri_w_native ri_pure
    ri_reduce ri_mul ri_pad] in *. rinv R4. apply res_assert_inv in R4.
  apply Nat.leb_le in R4.
  unfold d_bits_of in R1. cbv zeta in R1. fold wb in R1. rinv R1. injection R1 as <-.
  assert (WB : 1 <= wb) by lia.
  assert (W2 : 2 ^ (wb - 1) <= w - 1) by lia.
  assert (0 < 2 ^ (wb - 1)) by (apply Z.pow_pos_nonneg; lia).
  apply bits_to_leading_inv in R; [|lia]. destruct R as [LW DW].
  apply bits_to_leading_inv in R2; [|unfold OVERFLOW_BITS; lia]. destruct R2 as [LD DD].
  assert (PW : forall k, 2 ^ (LIMB_BITS * Z.of_nat k) = LIMB ^ Z.of_nat k).
  { intros k. unfold LIMB_BITS. rewrite Z.pow_mul_r by lia. reflexivity. }
  repeat match goal with
  | C : context [2 ^ (LIMB_BITS * Z.of_nat ?k)] |- _ => rewrite (PW k) in C
  end.
  unfold LIMB_BITS, OVERFLOW_BITS, OVERFLOW_LIMIT, COMMON_RANGE_BITS in *.
  set (L := Z.to_nat ((wb + 108 - 1) / 108)) in *.
  assert (LZ : Z.of_nat L = (wb + 107) / 108).
  { unfold L. replace (wb + 108 - 1) with (wb + 107) by lia. apply Z2Nat.id. apply Z.div_pos; lia. }
  change (6 * 2) with 12 in *. replace (wb + 12 + 1) with (wb + 13) in * by lia.
  replace (w - 1 + 1) with w in * by lia.
  change (64 - 1) with 63 in *.
  apply res_map_inv in R3 as [PL PI].
  assert (NB : 128 <= bits (nmod - 1)).
  { assert (HN : 2 ^ 200 <= nmod - 1).
    { match goal with C : ((LIMB * 2 ^ 18 - 1) * LIMB <? nmod) = true |- _ =>
        apply Z.ltb_lt in C; assert (2 ^ 200 <= (LIMB * 2 ^ 18 - 1) * LIMB) by (vm_compute; congruence); lia end. }
    unfold bits. destruct (Z.eqb_spec (nmod - 1) 0); [lia|].
    assert (128 <= Z.log2 (nmod - 1)); [|lia]. apply Z.log2_le_pow2; [lia|].
    eapply Z.le_trans; [|exact HN]. apply Z.pow_le_mono_r; lia. }
  specialize (KB NB). destruct KB as (KB1 & KB2 & KB3).
  constructor; cbn [ri_limbs ri_w_decompose ri_d_decompose ri_w_ceil_bits
    ri_d_bits ri_w_ceil ri_w ri_w_limbs_bn ri_w_limbs ri_coeffs ri_limb_n ri_w_native ri_pure
    ri_reduce ri_mul ri_pad]; try first [reflexivity | assumption | lia].
  - apply map_ext. intros i. f_equal. rewrite LIMB_eq, <- Z.pow_mul_r by lia. f_equal. lia.
  - unfold fof. apply Zmod_mod.
  - cbv zeta. rewrite Z2Nat.id; [exact DW|]. destruct (wb mod 108 =? 0); lia.
  - cbv zeta in *. rewrite Z2Nat.id; [exact DD|]. pose proof (Z.mod_pos_bound (wb + 13) 108 eq_refl). destruct ((wb + 13) mod 108 =? 0); lia.
  - cbn [length]. rewrite map_length, PL, map_length, seq_length. reflexivity.
  - intros t Ht.
    destruct (PI (Z.to_nat t - 1)%nat t) as (y & Hy & Hf).
    { rewrite nth_error_map. change (Z.to_nat 63) with 63%nat.
      rewrite (nth_error_nth' (seq 1 63) 0%nat) by (rewrite seq_length; lia).
      rewrite seq_nth by lia. cbn [option_map]. f_equal. lia. }
    apply find_pad_inv in Hf; [|lia|lia|lia|lia]. destruct Hf as (us & -> & PS).
    exists us. split; [|exact PS].
    replace (Z.to_nat t) with (S (Z.to_nat t - 1)) by lia. cbn [nth_error].
    rewrite nth_error_map, Hy. reflexivity.
  - apply max_ge. unfold bn_to_limb_le. apply Forall_map. apply Forall_forall. intros i _.
    apply limb_at_range.
Qed.

End Info.
