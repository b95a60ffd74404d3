(** Proofs of the foreign-field integer properties (C10-C24, C50) from the gadget lemmas. *)
From Verif Require Import Prelude FieldZ Circuit Context Spec Logic ModArith Prims BaseChip BaseProofs
  RangeInfo RangeChip IntegerChip SpecInt InfoProofs IntArith RangeProofs IntInv IntSound IntComplete IntBridge
  SpecProg IntProg IntProgProofs Moduli Prime311 Fields IntEval Checker NativeMain IntCases.
Lemma ST_impl {NM : NMod} {X} T A (m : M X) (P : Prop) (Q : X -> Prop) :
  (P -> ST T A m Q) -> ST T A m (fun x => P -> Q x).
Proof. intros H c x c' W R S HP. eapply H; eauto. Qed.
Lemma weighted_lval l : weighted l = lval l.
Proof. induction l as [|x l IH]; [reflexivity|]. cbn [weighted lval]. rewrite IH. reflexivity. Qed.
Lemma nb {NM : NMod} w I : range_info_new w = Ok I -> 2 ^ 108 < nmod.
Proof. intros H. eapply IntInv.n_big. apply (range_info_ok _ _ H). Qed.
Lemma rec_hok {NM : NMod} w I c x : info_ok w I -> hok I c x <-> int_recorded w c x valid.
Proof.
  intros IO. split.
  - intros [H1 H2 H3]. constructor; auto. apply (iwf_int_wf w I); auto.
  - intros [H1 H2 H3]. constructor; auto. apply (iwf_int_wf w I); auto.
Qed.
(** Turning [sound] statements into [ST] goals, with the well-formedness
    hypotheses moved in front. *)
Ltac info H := let IO := fresh "IO" in pose proof (range_info_ok _ _ H) as IO.
Ltac bridge IO := 
  repeat match goal with
  | H : int_wf _ _ _ |- _ => apply (iwf_int_wf _ _ IO) in H
  | H : int_ok _ _ _ _ |- _ => apply (hint_int_ok _ _ IO) in H
  end.
Ltac st1 := tosound; apply ST_impl; intro.
Ltac st2 := tosound; apply ST_impl; intro; apply ST_impl; intro.
Ltac fini IO := rewrite ?int_value_val; repeat match goal with |- _ /\ _ => split end; auto;
  try (apply (iwf_int_wf _ _ IO); assumption).
Ltac cta L IO := intros; bridge IO; eapply CT_accepts; [| |intros ? ? ? ?]; [auto|..].

Lemma C10_range_checks_sound_main :
  forall (NM : NMod), prime nmod ->
    (2 ^ 108 < nmod ->
       forall bn, sound (assign_common bn) (fun A r => 0 <= A⟦r⟧ < 2 ^ 18)
               /\ sound (assign_nonleading_limb bn) (fun A r => 0 <= A⟦r⟧ < 2 ^ 108)
               /\ forall k b, 0 <= b <= 108 -> sound (assign_limb bn k b) (fun A r => 0 <= A⟦r⟧ < 2 ^ b))
 /\ forall w I, range_info_new w = Ok I ->
       forall bn, sound (assign_w_ceil_leading_limb I bn) (fun A r => 0 <= A⟦r⟧ < 2 ^ (w_bits w mod 108))
               /\ sound (assign_d_leading_limb I bn) (fun A r => 0 <= A⟦r⟧ < 2 ^ ((w_bits w + 13) mod 108)).
Proof.
  intros NM P. split.
  - intros NB bn. repeat match goal with |- _ /\ _ => split end; [..|intros k b Hb]; tosound.
    + apply assign_common_ST; auto.
    + apply (assign_limb_ST P NB T A HA bn 6 108); lia.
    + apply assign_limb_ST; auto.
  - intros w I H bn. info H. pose proof (nb _ _ H) as NB.
    rewrite <- (wb_w_bits w I IO). rewrite <- (io_dbits _ _ IO).
    split; tosound; apply assign_limb_ST; auto; unfold LIMB_BITS;
      match goal with |- context [?x mod 108] => pose proof (Z.mod_pos_bound x 108 eq_refl); lia end.
Qed.

Lemma C10_case_main : exists r c', (@assign_limb bn256_fr 1234567890123456 4 51) ctx_new = Ok (r, c')
  /\ @satisfies bn256_fr c' (honest c') /\ (honest c')⟦r⟧ = 1234567890123456.
Proof.
  destruct (run_check_ok (NM := bn256_fr) (@assign_limb bn256_fr 1234567890123456 4 51) (fun r A => (A⟦r⟧ =? 1234567890123456)))
    as (r & c' & R & S & T); [reflexivity|vm_cast_no_check (eq_refl true)|].
  exists r, c'. split; [exact R|]. split; [exact S|]. apply Z.eqb_eq. exact T.
Qed.

Lemma C10_range_checks_complete_main :
  forall (NM : NMod), prime nmod -> 2 ^ 108 < nmod -> forall c, wf c ->
    (forall bn, 0 <= bn < 2 ^ 18 -> accepts c (assign_common bn) (fun r c' => valid c' r /\ a_val r = bn))
 /\ (forall bn, 0 <= bn < 2 ^ 108 -> accepts c (assign_nonleading_limb bn) (fun r c' => valid c' r /\ a_val r = bn))
 /\ (forall bn k b, 0 <= bn < 2 ^ b -> (1 <= k)%nat -> b <= 18 * Z.of_nat k -> 0 <= b <= 18 \/ 36 <= b <= 108 ->
       accepts c (assign_limb bn k b) (fun r c' => valid c' r /\ a_val r = bn))
 /\ forall w I, range_info_new w = Ok I ->
      (forall bn, 0 <= bn < 2 ^ (w_bits w mod 108) ->
         accepts c (assign_w_ceil_leading_limb I bn) (fun r c' => valid c' r /\ a_val r = bn))
   /\ (forall bn, 0 <= bn < 2 ^ ((w_bits w + 13) mod 108) ->
         accepts c (assign_d_leading_limb I bn) (fun r c' => valid c' r /\ a_val r = bn)).
Proof.
  intros NM P NB c W. repeat match goal with |- _ /\ _ => split end; [..|intros w I H; info H; split]; intros;
    apply CT_accepts.
  - apply assign_common_CT; auto.
  - apply (assign_limb_CT NB c bn 6 108); auto; lia.
  - apply assign_limb_CT; auto. lia.
  - unfold assign_w_ceil_leading_limb. rewrite <- (wb_w_bits w I IO) in *.
    pose proof (io_lead _ _ IO). pose proof (io_wdec _ _ IO) as HD. cbv zeta in HD. unfold LIMB_BITS.
    apply assign_limb_CT; auto; destruct (ri_w_ceil_bits I mod 108 =? 0) eqn:E; lia.
  - unfold assign_d_leading_limb. rewrite <- (hd_bits w I IO) in *.
    pose proof (io_dlead _ _ IO). pose proof (io_ddec _ _ IO) as HD. cbv zeta in HD. unfold LIMB_BITS.
    apply assign_limb_CT; auto; destruct (ri_d_bits I mod 108 =? 0) eqn:E; lia.
Qed.

Lemma C11_parameter_checks_main :
    (exists I, @range_info_new bn256_fr bn256_fq_p = Ok I /\ ri_limbs I = 3%nat /\ ri_d_bits I = 267
       /\ (ri_pure I, ri_reduce I, ri_mul I) = (1, 1, 3)%nat)
 /\ (exists I, @range_info_new bn256_fr bls12_381_fr_p = Ok I /\ ri_limbs I = 3%nat /\ ri_d_bits I = 268
       /\ (ri_pure I, ri_reduce I, ri_mul I) = (1, 1, 3)%nat)
 /\ (exists I, @range_info_new bn256_fr bls12_381_fq_p = Ok I /\ ri_limbs I = 4%nat /\ ri_d_bits I = 394
       /\ (ri_pure I, ri_reduce I, ri_mul I) = (2, 2, 5)%nat)
 /\ forall (NM : NMod) w I, range_info_new w = Ok I ->
      ri_w I = w /\ Z.of_nat (ri_limbs I) = n_limbs w /\ 3 <= n_limbs w
   /\ 2 ^ (w_bits w - 1) < w <= 2 ^ w_bits w /\ w_bits w <= 108 * n_limbs w < w_bits w + 108
   /\ ri_w_limbs I = bn_to_limb_le_n (ri_limbs I) w
   /\ 2 ^ w_bits w <= Z.lcm nmod (2 ^ (108 * Z.of_nat (ri_pure I)))
   /\ (2 ^ 18 - 1) * w + 2 ^ w_bits w <= Z.lcm nmod (2 ^ (108 * Z.of_nat (ri_reduce I)))
   /\ (63 * 2 ^ w_bits w - 1) * (63 * 2 ^ w_bits w - 1) < Z.lcm nmod (2 ^ (108 * Z.of_nat (ri_mul I)))
   /\ (2 ^ (w_bits w + 13) - 1) * w + 2 ^ w_bits w <= Z.lcm nmod (2 ^ (108 * Z.of_nat (ri_mul I))).
Proof.
  split; [exists bn_fq_info; split; [apply bn_fq_info_ok|vm_compute; auto]|].
  split; [exists bls_fr_info; split; [apply bls_fr_info_ok|vm_compute; auto]|].
  split; [exists bls_fq_info; split; [apply bls_fq_info_ok|vm_compute; auto]|].
  intros NM w I H. info H.
  pose proof (wb_w_bits w I IO) as WB. pose proof (io_limbs _ _ IO) as HL. pose proof (io_L3 _ _ IO).
  assert (EP : forall k, 2 ^ (108 * Z.of_nat k) = LIMB ^ Z.of_nat k) by (intros; unfold LIMB; rewrite <- Z.pow_mul_r by lia; reflexivity).
  rewrite !EP, <- WB. change (n_limbs w) with ((w_bits w + 107) / 108). rewrite <- WB, <- HL.
  pose proof (io_w _ _ IO). pose proof (io_wlo _ _ IO). pose proof (io_whi _ _ IO).
  pose proof (io_pure _ _ IO). pose proof (io_red_lcm _ _ IO).
  pose proof (io_mul_lcm1 _ _ IO) as M1. pose proof (io_mul_lcm2 _ _ IO) as M2. rewrite (io_dbits _ _ IO) in M2.
  rewrite (Z.mul_comm (2 ^ ri_w_ceil_bits I) 63) in M1.
  repeat match goal with |- _ /\ _ => split end; auto; try lia.
  1,2: pose proof (Z.div_mod (ri_w_ceil_bits I + 107) 108 ltac:(lia)); pose proof (Z.mod_pos_bound (ri_w_ceil_bits I + 107) 108 ltac:(lia)); lia.
  apply (io_wl _ _ IO).
Qed.

Lemma C12_limb_splitting_main :
    (forall k x, length (bn_to_limb_le k x) = k
        /\ Forall (fun l => 0 <= l < 2 ^ 108) (bn_to_limb_le k x)
        /\ (0 <= x < 2 ^ (108 * Z.of_nat k) -> weighted (bn_to_limb_le k x) = x))
 /\ (forall (NM : NMod), 0 < nmod -> forall x,
        0 <= fof x < nmod /\ fof x = x mod nmod /\ (0 <= x < nmod -> fof x = x))
 /\ (forall (NM : NMod) w I, range_info_new w = Ok I -> forall x, length (i_limbs x) = ri_limbs I ->
        get_w_bn I x = int_value a_val x).
Proof.
  repeat match goal with |- _ /\ _ => split end.
  - intros k x. split; [apply bn_to_limb_le_length|]. split; [apply Forall_map, Forall_forall; intros i _; apply limb_at_range|].
    intros H. rewrite weighted_lval. apply lval_limbs. unfold LIMB. rewrite <- Z.pow_mul_r by lia. exact H.
  - intros NM HN x. unfold fof. split; [apply Z.mod_pos_bound; auto|]. split; [reflexivity|]. apply Z.mod_small.
  - intros NM w I H x HL. unfold get_w_bn, int_value. rewrite <- HL, firstn_all. clear HL.
    induction (i_limbs x) as [|a l IH]; [reflexivity|]. cbn [fold_right limbs_value]. rewrite IH. unfold LIMB. ring.
Qed.

Lemma C13_subtraction_padding_main :
  forall (NM : NMod) w I, range_info_new w = Ok I -> forall t, 1 <= t <= 63 ->
    exists us, nth_error (ri_pad I) (Z.to_nat t) = Some (Some us)
    /\ Z.of_nat (length us) = n_limbs w
    /\ (w | weighted us)
    /\ Forall (fun u => t * 2 ^ 108 <= u < (t + 1) * 2 ^ 108) (removelast us)
    /\ t * 2 ^ (w_bits w mod 108) <= last us 0 < (t + 1) * 2 ^ (w_bits w mod 108)
    /\ t * 2 ^ w_bits w <= weighted us < t * 2 ^ w_bits w + w.
Proof.
  intros NM w I H t Ht. info H. destruct (io_pad _ _ IO t Ht) as (us & H1 & [P1 P2 P3 P4 P5 P6]).
  pose proof (wb_w_bits w I IO) as WB. pose proof (io_L3 _ _ IO) as L3. pose proof (nb _ _ H) as NB.
  pose proof (IntInv.n_gt w I IO) as NG.
  assert (LE : 2 ^ (ri_w_ceil_bits I mod 108) <= LIMB)
    by (unfold LIMB; apply Z.pow_le_mono_r; [lia|]; pose proof (Z.mod_pos_bound (ri_w_ceil_bits I) 108 eq_refl); lia).
  assert (LP : 0 < 2 ^ (ri_w_ceil_bits I mod 108)) by (apply Z.pow_pos_nonneg; [lia|]; apply Z.mod_pos_bound; lia).
  assert (ID : map fof us = us).
  { rewrite <- (map_id us) at 2. apply map_ext_in. intros u Hu.
    apply In_nth with (d := 0) in Hu as (i & Hi & <-). unfold fof. apply Z.mod_small.
    rewrite P1 in Hi. destruct (Nat.eq_dec i (ri_limbs I - 1)) as [->|N];
      [specialize P6|specialize (P5 i ltac:(lia))]; unfold LIMB in *; nia. }
  rewrite ID in H1. exists us. split; [exact H1|]. rewrite <- WB, weighted_lval.
  split; [rewrite P1, (io_limbs _ _ IO); unfold n_limbs; rewrite <- WB; reflexivity|].
  split; [exact P2|]. split; [|split; [|lia]].
  - apply Forall_forall. intros u Hu. apply In_nth with (d := 0) in Hu as (i & Hi & <-).
    rewrite length_removelast in Hi. rewrite nth_removelast by lia. specialize (P5 i ltac:(lia)). unfold LIMB in P5. lia.
  - assert (EL : last us 0 = nth (ri_limbs I - 1) us 0).
    { rewrite <- P1. clear. induction us as [|u us IH]; [reflexivity|]. destruct us as [|u' us]; [reflexivity|].
      change (last (u' :: us) 0 = nth (length (u' :: us)) (u :: u' :: us) 0). rewrite IH. cbn [length nth].
      destruct (length us); reflexivity. }
    rewrite EL. lia.
Qed.

Lemma C14_assigned_integers_main :
  forall (NM : NMod) w I, prime nmod -> range_info_new w = Ok I -> forall x,
    sound (assign_w I x) (fun A r => int_wf w (at_ A) r /\ i_times r = 1)
 /\ (0 <= x < 2 ^ w_bits w -> forall c, wf c ->
      accepts c (assign_w I x) (fun r c' => int_recorded w c' r valid /\ i_times r = 1 /\ int_value a_val r = x)).
Proof.
  intros NM w I P H x. info H. split.
  - tosound. eapply ST_wk; [apply (assign_w_ST w I IO); auto|]. intros r [K1 K2]. fini IO.
  - intros Hx c W. apply CT_accepts. eapply CT_weaken; [apply (assign_w_CT w I IO P c x W)|].
    + rewrite (wb_w_bits w I IO). exact Hx.
    + intros r c' _ _ (K1 & K2 & K3). rewrite int_value_val. split; [apply (rec_hok w I); auto|auto].
Qed.

Lemma C15_reduce_main :
  forall (NM : NMod) w I, prime nmod -> prime w -> range_info_new w = Ok I -> forall x,
    sound (reduce I x) (fun A r => int_wf w (at_ A) x ->
        int_wf w (at_ A) r /\ i_times r = 1 /\ int_value (at_ A) r mod w = int_value (at_ A) x mod w)
 /\ sound (conditionally_reduce I x) (fun A r => int_wf w (at_ A) x ->
        int_wf w (at_ A) r /\ i_times r <= 16 /\ int_value (at_ A) r mod w = int_value (at_ A) x mod w)
 /\ (forall c, wf c -> int_recorded w c x valid -> (i_times x = 1 -> int_value a_val x < w) ->
      accepts c (reduce I x) (fun r c' => int_ok w c' r valid /\ i_times r = 1
                                          /\ int_value a_val r = int_value a_val x mod w)).
Proof.
  intros NM w I P PW H x. info H. repeat match goal with |- _ /\ _ => split end.
  - st1. bridge IO. eapply ST_wk; [eapply (reduce_ST w I IO); eauto|]. intros r (K1 & K2 & K3). fini IO.
  - st1. bridge IO. eapply ST_wk; [eapply (cond_reduce_ST w I IO); eauto; apply H0|].
    intros r (K1 & K2 & K3). fini IO.
  - intros c W H1 H2. apply (rec_hok w I c x IO) in H1. rewrite int_value_val in H2. apply CT_accepts.
    eapply CT_weaken; [apply (reduce_CT w I IO P PW c x W H1 H2)|]. intros r c' _ _ (K1 & K2 & K3).
    rewrite !int_value_val. split; [|auto]. apply (hint_int_ok w I IO). split; [auto|]. split; [lia|].
    intros _. rewrite K3. apply Z.mod_pos_bound. pose proof (w_pos w PW). lia.
Qed.

Lemma C16_add_sub_neg_small_main :
  forall (NM : NMod) w I, prime nmod -> prime w -> range_info_new w = Ok I -> forall a b k,
    sound (int_add I a b) (fun A r => int_wf w (at_ A) a -> int_wf w (at_ A) b -> int_wf w (at_ A) r /\ i_times r <= 16
        /\ int_value (at_ A) r mod w = (int_value (at_ A) a + int_value (at_ A) b) mod w)
 /\ sound (int_sub I a b) (fun A r => int_wf w (at_ A) a -> int_wf w (at_ A) b -> int_wf w (at_ A) r /\ i_times r <= 16
        /\ int_value (at_ A) r mod w = (int_value (at_ A) a - int_value (at_ A) b) mod w)
 /\ sound (int_neg I a) (fun A r => int_wf w (at_ A) a -> int_wf w (at_ A) r /\ i_times r <= 16
        /\ int_value (at_ A) r mod w = (- int_value (at_ A) a) mod w)
 /\ (1 <= k -> sound (int_mul_small_constant I a k) (fun A r => int_wf w (at_ A) a -> int_wf w (at_ A) r /\ i_times r <= 16
        /\ int_value (at_ A) r mod w = (int_value (at_ A) a * k) mod w)).
Proof.
  intros NM w I P PW H a b k. info H. repeat match goal with |- _ /\ _ => split end; [..|intros Hk].
  - st2. bridge IO. eapply ST_wk; [eapply (int_add_ST w I IO); eauto|]. intros r (K1 & K2 & K3). fini IO.
  - st2. bridge IO. eapply ST_wk; [eapply (int_sub_ST w I IO); eauto|]. intros r (K1 & K2 & K3). fini IO.
  - st1. bridge IO. eapply ST_wk; [eapply (int_neg_ST w I IO); eauto|]. intros r (K1 & K2 & K3). fini IO.
  - st1. bridge IO. eapply ST_wk; [eapply (int_mul_small_ST w I IO); eauto|]. intros r (K1 & K2 & K3). fini IO.
Qed.

Lemma C17_int_mul_main :
  forall (NM : NMod) w I, prime nmod -> prime w -> range_info_new w = Ok I -> forall a b,
    sound (int_mul I a b) (fun A r => int_wf w (at_ A) a -> int_wf w (at_ A) b -> int_wf w (at_ A) r /\ i_times r = 1
        /\ int_value (at_ A) r mod w = (int_value (at_ A) a * int_value (at_ A) b) mod w)
 /\ sound (int_square I a) (fun A r => int_wf w (at_ A) a -> int_wf w (at_ A) r /\ i_times r = 1
        /\ int_value (at_ A) r mod w = (int_value (at_ A) a * int_value (at_ A) a) mod w).
Proof.
  intros NM w I P PW H a b. info H. split.
  - st2. bridge IO. eapply ST_wk; [eapply (int_mul_ST w I IO); eauto|]. intros r (K1 & K2 & K3). fini IO.
  - st1. bridge IO. unfold int_square. eapply ST_wk; [eapply (int_mul_ST w I IO); eauto|]. intros r (K1 & K2 & K3). fini IO.
Qed.

Lemma C18_int_div_main :
  forall (NM : NMod) w I, prime nmod -> prime w -> range_info_new w = Ok I -> forall a b,
    sound (int_div I a b) (fun A r => int_wf w (at_ A) a -> int_wf w (at_ A) b ->
        int_wf w (at_ A) (snd r) /\ i_times (snd r) = 1
        /\ A⟦fst r⟧ = Z.b2z (int_value (at_ A) b mod w =? 0)
        /\ (int_value (at_ A) b mod w <> 0 ->
            (int_value (at_ A) b * int_value (at_ A) (snd r)) mod w = int_value (at_ A) a mod w))
 /\ sound (int_unsafe_invert I a) (fun A r => int_wf w (at_ A) a ->
        int_value (at_ A) a mod w <> 0 /\ int_wf w (at_ A) r /\ i_times r = 1
        /\ (int_value (at_ A) a * int_value (at_ A) r) mod w = 1).
Proof.
  intros NM w I P PW H a b. info H. pose proof (w_pos w PW) as WP. split.
  - st2. bridge IO. eapply ST_wk; [eapply (int_div_ST w I IO); eauto|]. intros [z q] (K1 & K2 & K3 & K4 & _). cbn [fst snd] in *.
    fini IO.
    + eapply bit_b2z; [exact K1|]. rewrite Z.eqb_eq. apply eqm_0_iff.
  - st1. bridge IO. eapply ST_wk; [eapply (int_unsafe_invert_ST w I IO); eauto|]. intros r (K1 & K2 & K3).
    rewrite !int_value_val. change (fun a0 : av => A⟦a0⟧) with (vA A) in *.
    assert (E1 : (val (at_ A) a * val (at_ A) r) mod w = 1).
    { rewrite <- (Z.mod_small 1 w) by lia. exact K3. }
    split.
    + intros E. rewrite Z.mul_mod, E, Z.mul_0_l, Zmod_0_l in E1 by lia. discriminate.
    + fini IO.
Qed.

Lemma C19_int_zero_and_equality_tests_main :
  forall (NM : NMod) w I, prime nmod -> prime w -> range_info_new w = Ok I -> forall a b,
    sound (is_int_zero I a) (fun A r => int_wf w (at_ A) a -> A⟦r⟧ = Z.b2z (int_value (at_ A) a mod w =? 0))
 /\ sound (is_int_equal I a b) (fun A r => int_wf w (at_ A) a -> int_wf w (at_ A) b ->
        A⟦r⟧ = Z.b2z (int_value (at_ A) a mod w =? int_value (at_ A) b mod w)).
Proof.
  intros NM w I P PW H a b. info H. pose proof (w_pos w PW) as WP. split.
  - st1. bridge IO. eapply ST_wk; [eapply (is_int_zero_ST w I IO); eauto|]. intros r K.
    rewrite int_value_val. eapply bit_b2z; [exact K|]. rewrite Z.eqb_eq. apply eqm_0_iff.
  - st2. bridge IO. eapply ST_wk; [eapply (is_int_equal_ST w I IO); eauto|]. intros r K.
    rewrite !int_value_val. eapply bit_b2z; [exact K|]. rewrite Z.eqb_eq. reflexivity.
Qed.

Lemma C20_assert_int_equal_main :
  forall (NM : NMod) w I, prime nmod -> prime w -> range_info_new w = Ok I -> forall a b,
    sound (assert_int_equal I a b) (fun A _ => int_wf w (at_ A) a -> int_wf w (at_ A) b ->
        int_value (at_ A) a mod w = int_value (at_ A) b mod w)
 /\ (forall c, wf c -> int_ok w c a valid -> int_ok w c b valid ->
       int_value a_val a mod w = int_value a_val b mod w -> accepts c (assert_int_equal I a b) (fun _ _ => True)).
Proof.
  intros NM w I P PW H a b. info H. split.
  - st2. bridge IO. eapply ST_wk; [eapply (assert_int_equal_ST w I IO); eauto|]. intros r K. rewrite !int_value_val. exact K.
  - intros c W H1 H2 E. bridge IO. rewrite !int_value_val in E. apply CT_accepts.
    eapply CT_weaken; [apply (assert_int_equal_CT w I IO P PW c a b W H1 H2 E)|]. auto.
Qed.

Lemma C21_selection_and_constants_main :
  forall (NM : NMod) w I, prime nmod -> prime w -> range_info_new w = Ok I -> forall c a b k,
    sound (bisec_int I c a b) (fun A r => int_wf w (at_ A) a -> int_wf w (at_ A) b ->
        forall cond, A⟦c⟧ = Z.b2z cond ->
        int_wf w (at_ A) r /\ i_times r = Z.max (i_times a) (i_times b)
        /\ int_value (at_ A) r = if cond then int_value (at_ A) a else int_value (at_ A) b)
 /\ (0 <= k < w -> sound (assign_int_constant I k) (fun A r =>
        int_wf w (at_ A) r /\ i_times r = 1 /\ int_value (at_ A) r = k)).
Proof.
  intros NM w I P PW H c a b k. info H. split.
  - tosound. apply ST_impl. intros H1. apply ST_impl. intros H2. bridge IO.
    intros c0 r c' W R S cond E.
    assert (K := bisec_int_ST w I IO T A HA c a b H1 H2 ltac:(unfold vA; rewrite E; destruct cond; cbn; auto) c0 r c' W R S).
    cbv beta in K. destruct K as (K1 & K2 & K3). unfold vA in K3 at 2. rewrite E in K3. fini IO.
    destruct cond; exact K3.
  - intros Hk. tosound. eapply ST_wk; [eapply (assign_int_constant_ST w I IO); eauto|]. intros r (K1 & K2 & K3). fini IO.
Qed.

Lemma C22_case_main :
  let prog := [IAdd 0 1; ISub 0 2; IMul 2 3; INeg 4; IMulSmall 5 15; IReduce 6; ISub 1 1; IIsZero 8; IIsEqual 3 3;
               IAssertEqual 8 8; IInvert 0; ISquare 0; IConst 4; IDiv 1 0; IDiv 0 8; ISelect 3 10 9] in
  Forall (iop_ok bn256_fq_p) prog /\ ican bn256_fq_p prog ([bn256_fq_p - 1; 3], []).
Proof.
  cbv zeta. split; [repeat constructor; discriminate|].
  assert (P := bn256_fq_p_prime).
  do 14 (match goal with |- ican _ (?op :: _) ?s =>
    let e := eval vm_compute in (ieval1 bn256_fq_p op s) in
    match e with Some ?s' =>
      let K := fresh "K" in assert (K : ieval1 bn256_fq_p op s = Some s') by (vm_cast_no_check (eq_refl (Some s')));
      apply ieval1_ok in K; [|exact P]; destruct K as [K1 K2]; split; [eexists; exact K1|];
      let s2 := fresh "s2" in let Hs := fresh "Hs" in intros s2 Hs; apply K2 in Hs; subst s2; clear K1 K2
    end end).
  split.
  - eexists. do 3 eexists. split; [reflexivity|]. split; [reflexivity|].
    split; [split; [apply Z.le_refl|reflexivity]|]. split; [|reflexivity]. intros H. exfalso. apply H. reflexivity.
  - intros s2 (x & y & q & H1 & H2 & H3 & H4 & ->). injection H1 as <-. injection H2 as <-.
    split; [|intros; exact Logic.I]. eexists. do 3 eexists. repeat split; reflexivity.
Qed.

Lemma C22_honest_programs_accepted_main :
  forall (NM : NMod) w I, prime nmod -> prime w -> range_info_new w = Ok I -> (w_bits w + 13) mod 108 <> 0 ->
  forall inputs prog, Forall (fun x => 0 <= x < w) inputs -> Forall (iop_ok w) prog -> ican w prog (inputs, []) ->
  forall c, wf c ->
    accepts c (run_prog I inputs prog) (fun r c' => exists s', isteps w prog (inputs, []) s'
      /\ Forall2 (fun x v => int_ok w c' x valid /\ int_value a_val x mod w = v) (fst (snd r)) (fst s')
      /\ Forall2 (fun x v => valid c' x /\ a_val x = Z.b2z v) (snd (snd r)) (snd s')).
Proof.
  intros NM w I P PW H HD inputs prog H1 H2 H3 c W. info H. apply CT_accepts.
  eapply CT_weaken; [apply (run_prog_CT w I IO P PW); auto; rewrite (hd_bits w I IO); exact HD|].
  intros r c' _ _ (s' & K1 & K2 & K3). exists s'. split; [exact K1|]. split; [|exact K3].
  eapply Forall2_impl; [|exact K2]. intros x v [Q1 Q2]. rewrite int_value_val. split; [apply (hint_int_ok w I IO); auto|auto].
Qed.

Lemma C23_mul_by_small_constant_usable_partial_main :
  forall (NM : NMod) w I, prime nmod -> prime w -> range_info_new w = Ok I -> forall a k c, wf c ->
    int_ok w c a valid -> 1 <= k < 16 ->
    accepts c (int_mul_small_constant I a k) (fun r c' => int_ok w c' r valid
       /\ int_value a_val r mod w = (int_value a_val a * k) mod w).
Proof.
  intros NM w I P PW H a k c W H1 Hk. info H. bridge IO. apply CT_accepts.
  eapply CT_weaken; [apply (int_mul_small_CT w I IO P PW c a k W H1 Hk)|]. intros r c' _ _ (K1 & K2).
  rewrite !int_value_val. split; [apply (hint_int_ok w I IO); auto|exact K2].
Qed.

Lemma C23_mul_by_zero_usable_refuted_main :
  exists a r c, (a <- @assign_w bn256_fr bn_fq_info 5 ;; r <- @int_mul_small_constant bn256_fr bn_fq_info a 0 ;; mret (a, r)) ctx_new
                  = Ok ((a, r), c)
    /\ @satisfies bn256_fr c (honest c) /\ int_value (at_ (honest c)) r = 0
    /\ @int_neg bn256_fr bn_fq_info r c = Panic /\ @int_sub bn256_fr bn_fq_info a r c = Panic.
Proof.
  destruct (run_check_ok (NM := bn256_fr)
     (a <- @assign_w bn256_fr bn_fq_info 5 ;; r <- @int_mul_small_constant bn256_fr bn_fq_info a 0 ;; c <- mget ;; mret (a, r, c))
     (fun x A => (int_value (at_ A) (snd (fst x)) =? 0)
        && match @int_neg bn256_fr bn_fq_info (snd (fst x)) (snd x), @int_sub bn256_fr bn_fq_info (fst (fst x)) (snd (fst x)) (snd x)
           with Panic, Panic => true | _, _ => false end))
    as ([[a r] c1] & c' & R & S & T); [reflexivity|vm_cast_no_check (eq_refl true)|].
  assert (E : c1 = c').
  { apply mbind_inv in R as (? & ? & _ & R). apply mbind_inv in R as (? & ? & _ & R).
    apply mbind_inv in R as (? & ? & R1 & R2). injection R1 as <- <-. injection R2. congruence. }
  subst c1. cbn [fst snd] in T. apply andb_prop in T as [T1 T2].
  exists a, r, c'. split.
  - apply mbind_inv in R as (a0 & c1 & R1 & R). apply mbind_inv in R as (r0 & c2 & R2 & R).
    apply mbind_inv in R as (? & ? & R3 & R4). injection R3 as <- <-. injection R4 as <- <- <-.
    unfold mbind. rewrite R1. unfold mbind. rewrite R2. reflexivity.
  - split; [exact S|]. split; [apply Z.eqb_eq; exact T1|].
    destruct (@int_neg bn256_fr bn_fq_info r c'); [discriminate|].
    destruct (@int_sub bn256_fr bn_fq_info a r c'); [discriminate|]. split; reflexivity.
Qed.

Lemma C24_programs_refine_modular_arithmetic_main :
  forall (NM : NMod) w I, prime nmod -> prime w -> range_info_new w = Ok I ->
  forall inputs prog, Forall (iop_ok w) prog ->
    sound (run_prog I inputs prog) (fun A r =>
      length (fst r) = length inputs /\ Forall (int_wf w (at_ A)) (fst r)
      /\ exists s', isteps w prog (map (fun x => int_value (at_ A) x mod w) (fst r), []) s'
      /\ Forall2 (fun x v => int_wf w (at_ A) x /\ int_value (at_ A) x mod w = v) (fst (snd r)) (fst s')
      /\ Forall2 (fun x v => A⟦x⟧ = Z.b2z v) (snd (snd r)) (snd s')).
Proof.
  intros NM w I P PW H inputs prog HO. info H. tosound.
  eapply ST_wk; [eapply (run_prog_ST w I IO P PW T A HA); auto|].
  intros r (K1 & K2 & s' & K3 & K4 & K5). split; [auto|]. split.
  - eapply Forall_impl; [|exact K1]. intros x Q. apply (iwf_int_wf w I IO). exact Q.
  - exists s'. split; [|split; [|exact K5]].
    + replace (map (fun x => int_value (at_ A) x mod w) (fst r)) with (map (fun x => val (vA A) x mod w) (fst r)); [exact K3|].
      apply map_ext. intros x. rewrite int_value_val. reflexivity.
    + eapply Forall2_impl; [|exact K4]. intros x v [Q1 Q2]. rewrite int_value_val. split; [apply (iwf_int_wf w I IO); exact Q1|exact Q2].
Qed.

Lemma C50_multiplication_complete_partial_main :
  forall (NM : NMod) w I, prime nmod -> prime w -> range_info_new w = Ok I -> (w_bits w + 13) mod 108 <> 0 ->
  forall c a b, wf c -> int_recorded w c a valid -> int_recorded w c b valid ->
    accepts c (int_mul I a b) (fun r c' => int_ok w c' r valid
      /\ int_value a_val r = (int_value a_val a * int_value a_val b) mod w).
Proof.
  intros NM w I P PW H HD c a b W H1 H2. info H. apply (rec_hok w I c a IO) in H1. apply (rec_hok w I c b IO) in H2.
  rewrite <- (hd_bits w I IO) in HD. apply CT_accepts.
  eapply CT_weaken; [apply (int_mul_CT w I IO P PW HD c a b W H1 H2)|]. intros r c' _ _ (K1 & K2 & K3).
  rewrite !int_value_val. split; [apply (hint_int_ok w I IO); auto|exact K3].
Qed.

Lemma w311_lt : 0 <= w311 - 1 < 2 ^ ri_w_ceil_bits w311_info.
Proof. vm_compute. split; [discriminate|reflexivity]. Qed.
Lemma w311_runs : match (a <- @assign_w bn256_fr w311_info (w311 - 1) ;; @int_mul bn256_fr w311_info a a) ctx_new with
  Ok _ => true | Panic => false end = true.
Proof. vm_cast_no_check (eq_refl true). Qed.
Lemma w311_contra d r : 0 <= d < 2 ^ (108 * (Z.of_nat (ri_limbs w311_info) - 1) + ri_d_bits w311_info mod 108) ->
  (w311 - 1) * (w311 - 1) = d * w311 + r -> 0 <= r < 1 * 2 ^ ri_w_ceil_bits w311_info -> False.
Proof.
  change (2 ^ (108 * (Z.of_nat (ri_limbs w311_info) - 1) + ri_d_bits w311_info mod 108)) with (2 ^ 216).
  change (2 ^ ri_w_ceil_bits w311_info) with (2 ^ 311).
  intros H1 H2 H3. assert (E : d * w311 <= (2 ^ 216 - 1) * w311) by (apply Z.mul_le_mono_nonneg_r; [vm_compute; discriminate|lia]).
  assert (E2 : (2 ^ 216 - 1) * w311 + 2 ^ 311 <= (w311 - 1) * (w311 - 1)) by (vm_compute; discriminate). lia.
Qed.
Lemma iwf_read {NM : NMod} I f g x : iwf I f x -> map g (i_limbs x) = map f (i_limbs x) -> g (i_native x) = f (i_native x) -> iwf I g x.
Proof.
  intros [H1 H2 H3 H4 H5 H6] E1 E2. unfold val, lv in *. constructor; unfold val, lv; rewrite ?E1, ?E2; auto.
Qed.

Lemma C50_multiplication_complete_refuted_main :
  exists w I, prime w /\ @range_info_new bn256_fr w = Ok I /\
  exists a c, @good bn256_fr c /\ @int_ok bn256_fr w c a (@valid bn256_fr) /\ int_value a_val a = w - 1 /\
  exists r c', @int_mul bn256_fr I a a c = Ok (r, c')
    /\ forall A, @satisfies bn256_fr c' A -> agrees c A -> False.
Proof.
  pose (NM0 := bn256_fr). exists w311, w311_info. split; [exact w311_prime|]. split; [exact w311_info_ok|].
  pose proof (range_info_ok _ _ w311_info_ok) as IO.
  destruct (CT_accepts _ _ _ (assign_w_CT (NM := bn256_fr) w311 w311_info IO bn256_fr_prime ctx_new (w311 - 1)
     (good_wf _ (good_new (NM := bn256_fr))) w311_lt)) as (a & c & RA & EA & (HA & TA & VA) & GA).
  specialize (GA good_new).
  exists a, c. split; [exact GA|]. split.
  { apply (hint_int_ok w311 w311_info IO). split; [exact HA|]. split; [rewrite TA; discriminate|]. intros _. rewrite VA. reflexivity. }
  split; [rewrite int_value_val; exact VA|].
  assert (RR : exists r c', @int_mul bn256_fr w311_info a a c = Ok (r, c')).
  { assert (X := w311_runs). unfold mbind in X. rewrite RA in X.
    destruct (int_mul w311_info a a c) as [[r c']|]; [eauto|discriminate]. }
  destruct RR as (r & c' & RM). exists r, c'. split; [exact RM|].
  intros A S AG.
  assert (HR : forall x, 0 <= A x < @nmod bn256_fr) by (apply S).
  assert (VV : forall x, valid c x -> vA A x = a_val x).
  { intros x (U1 & U2 & U3). unfold vA. destruct (a_cell x) as [ch col row] eqn:EC. cbn [c_chip c_row] in U1.
    rewrite (AG ch row U1 col). unfold honest. rewrite U2. reflexivity. }
  destruct HA as [HL HN HW].
  assert (EV : forall l, Forall (valid c) l -> map (vA A) l = map a_val l).
  { intros l Hl. apply map_ext_in. intros x Hx. rewrite Forall_forall in Hl. apply VV. auto. }
  assert (WA : iwf w311_info (vA A) a) by (apply (iwf_read w311_info a_val); auto).
  assert (VA' : val (vA A) a = w311 - 1) by (unfold val; rewrite EV by auto; exact VA).
  assert (K := ST_sound _ _ (fun T A HA => ST_impl T A _ _ _ (fun Wa => int_mul_full_ST w311 w311_info IO bn256_fr_prime w311_prime T A HA a a Wa Wa))).
  specialize (K c r c' c' A (good_wf _ GA) RM (extends_refl c') S WA).
  destruct K as ((WR & TR & _) & d & Hd & EQ).
  rewrite VA' in EQ. pose proof (wf_val _ _ _ WR) as HV. rewrite TR in HV.
  eapply w311_contra; [exact Hd|exact EQ|exact HV].
Qed.

