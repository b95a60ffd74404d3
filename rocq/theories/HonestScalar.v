(** Honest runs of both scalar decompositions: they do not panic, the witness satisfies
    what they record, and the cells hold the binary digits of the scalar. *)
From Verif Require Import Prelude FieldZ Circuit Context Spec Logic ModArith Prims BaseChip BaseProofs
  RangeInfo RangeChip IntegerChip SpecInt InfoProofs IntArith RangeProofs IntInv IntSound IntComplete IntBridge
  IntRes ScalarChip ScalarProofs SpecMsm.

Lemma bit_of_01 e i : bit_of e i = 0 \/ bit_of e i = 1.
Proof. unfold bit_of. destruct (Z.testbit e i); auto. Qed.
Lemma shiftr_1 e k : 0 <= k -> Z.shiftr e k = 2 * Z.shiftr e (k + 1) + bit_of e k.
Proof.
  intros Hk. rewrite <- Z.shiftr_shiftr by lia. rewrite <- Z.div2_spec. rewrite (Z.div2_odd (Z.shiftr e k)) at 1. f_equal. unfold bit_of.
  rewrite <- Z.bit0_odd, Z.shiftr_spec by lia. rewrite Z.add_0_l. destruct (Z.testbit e k); reflexivity.
Qed.
Lemma shiftr_2 e k : 0 <= k -> Z.shiftr e k = 4 * Z.shiftr e (k + 2) + 2 * bit_of e (k + 1) + bit_of e k.
Proof. intros Hk. rewrite (shiftr_1 e k Hk), (shiftr_1 e (k + 1)) by lia. replace (k + 1 + 1) with (k + 2) by lia. ring. Qed.
(** The digits number k, ..., k + n - 1 of e. *)
Definition digits (e : Z) (k n : nat) : list Z := map (fun i => bit_of e (Z.of_nat i)) (seq k n).
Lemma digits_S e k n : digits e k (S n) = digits e k n ++ [bit_of e (Z.of_nat (k + n))].
Proof. unfold digits. rewrite seq_S, map_app. reflexivity. Qed.
Lemma digits_length e k n : length (digits e k n) = n.
Proof. unfold digits. rewrite map_length. apply seq_length. Qed.
Lemma digits_01 e k n : Forall (fun x => x = 0 \/ x = 1) (digits e k n).
Proof. unfold digits. apply Forall_map, Forall_forall. intros i _. apply bit_of_01. Qed.
Lemma digits_value e n : forall k, Z.shiftr e (Z.of_nat k) = bin_le (digits e k n) + 2 ^ Z.of_nat n * Z.shiftr e (Z.of_nat (k + n)).
Proof.
  induction n as [|n IH]; intros k.
  - change (bin_le (digits e k 0)) with 0. change (2 ^ Z.of_nat 0) with 1. rewrite Nat.add_0_r. ring.
  - cbn [digits seq map bin_le]. fold (digits e (S k) n). rewrite (shiftr_1 e) by lia. replace (Z.of_nat k + 1) with (Z.of_nat (S k)) by lia.
    rewrite IH, (Nat2Z.inj_succ n), Z.pow_succ_r by lia. replace (S k + n)%nat with (k + S n)%nat by lia. ring.
Qed.
Lemma digits_all e n : 0 <= e < 2 ^ Z.of_nat n -> bin_le (digits e 0 n) = e.
Proof.
  intros H. pose proof (digits_value e n 0) as D. rewrite Z.shiftr_0_r in D. cbn [Nat.add] in D.
  rewrite (Z.shiftr_div_pow2 e) in D by lia. rewrite Z.div_small in D by lia. lia.
Qed.

Section S.
Context {NM : NMod}.
Hypothesis n_prime : prime nmod.

Definition hbits (c : ctx) (l : list av) (ds : list Z) : Prop := Forall (valid c) l /\ map a_val l = ds.
Lemma hbits_mono c d l ds : extends c d -> hbits c l ds -> hbits d l ds.
Proof. intros E [H1 H2]. split; [|exact H2]. eapply Forall_impl; [|exact H1]. intros a. apply valid_mono, E. Qed.
Lemma hbits_app c l l' ds ds' : hbits c l ds -> hbits c l' ds' -> hbits c (l ++ l') (ds ++ ds').
Proof. intros [H1 H2] [H3 H4]. split; [apply Forall_app; auto|]. rewrite map_app, H2, H4. reflexivity. Qed.

Lemma to_windows_CT c W bits ds : wf c -> (1 <= W)%nat -> hbits c bits ds ->
  CT c (to_windows W bits) (fun ws c' => exists k, hbits c' (concat (rev ws)) (ds ++ repeat 0 k)
     /\ Forall (fun w => length w = W) ws /\ length ws = n_windows (length bits) W).
Proof.
  intros Wf W1 HB. unfold to_windows. pose proof (n_pos n_prime).
  apply CT_assert_k; [destruct W; [lia|reflexivity]|]. cbv zeta.
  eapply (CT_bind c _ _ (fun b c' => exists k, hbits c' b (ds ++ repeat 0 k) /\ length b = (length bits + k)%nat /\ (k < W)%nat /\ (length b mod W = 0)%nat)).
  - unfold acond in *. destruct (length bits mod W =? 0)%nat eqn:E.
    + apply Nat.eqb_eq in E. apply CT_ret; [auto|]. exists 0%nat. cbn [repeat]. rewrite app_nil_r. repeat split; try apply HB; auto; lia.
    + apply Nat.eqb_neq in E. eapply CT_bind; [apply assign_constant_CT; auto; lia|]. intros z c1 Wf1 E1 [V1 H1]. apply CT_ret; [auto|].
      pose proof (Nat.mod_upper_bound (length bits) W ltac:(lia)) as MB. pose proof (Nat.div_mod (length bits) W ltac:(lia)) as DM.
      exists (W - length bits mod W)%nat. rewrite app_length, repeat_length. split; [|split; [reflexivity|split; [lia|]]].
      * apply hbits_app; [eapply hbits_mono; eauto|]. split; [apply Forall_forall; intros a Ha; apply repeat_spec in Ha as ->; exact V1|].
        rewrite <- H1. clear. induction (W - length bits mod W)%nat as [|k IH]; cbn; [reflexivity|]. rewrite IH. reflexivity.
      * apply Nat.mod_divides; [lia|]. exists (S (length bits / W)). nia.
  - unfold acond in *. intros b c1 Wf1 E1 (k & HB1 & LB & Lk & M). apply CT_assert_k; [apply Nat.eqb_eq; exact M|]. apply CT_ret; [auto|].
    exists k. rewrite rev_involutive, chunks_concat by auto. split; [exact HB1|].
    apply Nat.mod_divides in M; [|lia]. destruct M as [q M].
    destruct (chunks_even W q b W1) as [F1 L1]; [lia|]. split.
    + apply Forall_forall. intros x Hx. apply in_rev in Hx. rewrite Forall_forall in F1. auto.
    + rewrite rev_length, L1. unfold n_windows. apply (Nat.div_unique _ _ q (W - 1 - k)); [lia|nia].
Qed.

(** What is known of the result. *)
Definition dec_ok (c : ctx) (W nb : nat) (v : Z) (ws : list (list acond)) : Prop :=
  Forall (fun b => valid c b /\ (a_val b = 0 \/ a_val b = 1)) (concat (rev ws))
  /\ bin_le (map a_val (concat (rev ws))) = v
  /\ Forall (fun w => length w = W) ws /\ length ws = n_windows nb W.
Lemma dec_ok_of c W nb v ws ds k : hbits c (concat (rev ws)) (ds ++ repeat 0 k) -> Forall (fun x => x = 0 \/ x = 1) ds -> bin_le ds = v ->
  Forall (fun w => length w = W) ws -> length ws = n_windows nb W -> dec_ok c W nb v ws.
Proof.
  intros [H1 H2] F E F1 L1. assert (F2 : Forall (fun x => x = 0) (repeat 0 k)) by (apply Forall_forall; intros x Hx; apply repeat_spec in Hx; exact Hx).
  split; [|split; [|auto]].
  - assert (F3 : Forall (fun x => x = 0 \/ x = 1) (map a_val (concat (rev ws)))).
    { unfold acond in *. rewrite H2. apply Forall_app. split; [exact F|]. eapply Forall_impl; [|exact F2]. auto. }
    clear - H1 F3. unfold acond in *. revert H1 F3. generalize (concat (rev ws)). intros q H1 F3. induction H1 as [|a l Va Fl IH]; [constructor|]. cbn [map] in F3. inversion_clear F3. constructor; auto.
  - unfold acond in *. rewrite H2, bin_le_app, (bin_le_zeros _ F2). lia.
Qed.

(** *** Native scalars *)
Definition ninv (e : Z) (k : nat) (st : av * list acond) (c : ctx) : Prop :=
  valid c (fst st) /\ a_val (fst st) ≡ Z.shiftr e (2 * Z.of_nat k) ⟨nmod⟩ /\ hbits c (snd st) (digits e 0 (2 * k)).
Lemma native_step_CT e i st c : wf c -> ninv e i st c -> CT c (native_step e st i) (fun r c' => ninv e (S i) r c').
Proof.
  intros W (V & H & F). unfold native_step. cbv zeta.
  eapply CT_bind; [apply assign_bit_CT; auto; apply bit_of_01|]. intros b0 c1 W1 E1 [V0 H0].
  eapply CT_bind; [apply assign_bit_CT; auto; apply bit_of_01|]. intros b1 c2 W2 E2 [V1 H1]. pose proof (n_pos n_prime).
  assert (VV : valid c2 (fst st)) by eauto using valid_mono, extends_trans. assert (valid c2 b0) by eauto using valid_mono.
  eapply CT_bind; [apply CT_one_line_with_last; [assumption|cbn;lia|cbn;lia| |exact VV|]|].
  - constructor; [cbn; unfold fof; apply mod_range; auto|]. constructor; [exact V1|]. constructor; [assumption|constructor].
  - unfold gate_sum, with_tail, tail_val, pair_val, pa, pu. cbn [map fst snd nth opt0 schema_val]. rewrite H0, H1. unf. estrip. rewrite H.
    rewrite (shiftr_2 e (2 * Z.of_nat i)) by lia. replace (Z.of_nat i * 2) with (2 * Z.of_nat i) by lia. estrip. apply eqm_eq. ring.
  - intros x c3 W3 E3 (-> & FV & _). cbn [fst] in FV. cbn [fst].
    destruct (nth_handles_valid _ _ _ 0%nat _ FV eq_refl) as [EN VN].
    eapply CT_nth_k; [exact EN|]. apply CT_ret; [exact W3|]. split; [exact VN|]. cbn [fst snd a_val pu schema_val]. split.
    + unf. estrip. replace (2 * Z.of_nat (S i)) with (Z.of_nat i * 2 + 2) by lia. reflexivity.
    + replace (2 * S i)%nat with (S (S (2 * i))) by lia. rewrite !digits_S, <- app_assoc. cbn [Nat.add app]. apply hbits_app.
      * eapply hbits_mono; [|exact F]. eauto using extends_trans.
      * split; [constructor; [|constructor; [|constructor]]; eauto using valid_mono, extends_trans|]. cbn [map]. rewrite H0, H1.
        replace (Z.of_nat (2 * i)) with (Z.of_nat i * 2) by lia. replace (Z.of_nat (S (2 * i))) with (Z.of_nat i * 2 + 1) by lia. reflexivity.
Qed.
Lemma num_bits_bound : nmod < 2 ^ NUM_BITS.
Proof. pose proof (n_pos n_prime). unfold NUM_BITS. apply (Z.log2_spec nmod). lia. Qed.
Lemma decompose_native_CT c W s : wf c -> (1 <= W)%nat -> valid c s ->
  CT c (decompose_scalar_native W s) (fun ws c' => dec_ok c' W NB (a_val s) ws).
Proof.
  intros Wf W1 V. unfold decompose_scalar_native. set (e := a_val s). pose proof (num_bits_pos n_prime) as NP. pose proof num_bits_bound as NB1.
  assert (R : 0 <= e < nmod) by apply V. pose proof (Z.div_mod NUM_BITS 2 ltac:(lia)) as DM. rewrite Zmod_odd in DM.
  assert (NN : 0 <= NUM_BITS / 2) by (apply Z.div_pos; lia). pose proof (n_pos n_prime) as N2.
  eapply CT_bind; [apply (CT_foldM_seq _ (ninv e) (Z.to_nat (NUM_BITS / 2)) 0 (s, []) c Wf)|].
  - split; [exact V|]. split; [cbn [fst]; apply eqm_eq; symmetry; apply Z.shiftr_0_r|]. split; [constructor|reflexivity].
  - intros i st c1 _ Wf1 _ U. apply native_step_CT; auto.
  - intros [v bits] c1 Wf1 E1 (V1 & H1 & F1). cbn [Nat.add] in H1, F1. cbn [fst snd] in *. rewrite Z2Nat.id in H1 by exact NN.
    eapply (CT_bind c1 _ _ (fun b c' => hbits c' b (digits e 0 NB))).
    + destruct (Z.odd NUM_BITS) eqn:O.
      * assert (HV : a_val v = bit_of e (2 * (NUM_BITS / 2))).
        { assert (SB : 0 <= Z.shiftr e (2 * (NUM_BITS / 2)) < 2).
          { rewrite Z.shiftr_div_pow2 by lia. split; [apply Z.div_pos; [lia|apply Z.pow_pos_nonneg; lia]|].
            apply Z.div_lt_upper_bound; [apply Z.pow_pos_nonneg; lia|]. rewrite Z.mul_comm, <- Z.pow_succ_r by lia.
            replace (Z.succ (2 * (NUM_BITS / 2))) with NUM_BITS by lia. lia. }
          transitivity (Z.shiftr e (2 * (NUM_BITS / 2))); [apply (eqm_small nmod); [exact H1|apply V1|lia]|].
          pose proof (shiftr_1 e (2 * (NUM_BITS / 2)) ltac:(lia)). destruct (bit_of_01 e (2 * (NUM_BITS / 2))); lia. }
        eapply CT_bind; [apply assert_bit_CT; auto; rewrite HV; apply bit_of_01|]. intros u c2 Wf2 E2 _. apply CT_ret; [auto|].
        replace NB with (S (2 * Z.to_nat (NUM_BITS / 2)))%nat by (unfold NB; lia). rewrite digits_S. apply hbits_app; [eapply hbits_mono; eauto|].
        split; [constructor; [eapply valid_mono; eauto|constructor]|]. cbn [map Nat.add]. rewrite HV.
        replace (Z.of_nat (2 * Z.to_nat (NUM_BITS / 2))) with (2 * (NUM_BITS / 2)) by lia. reflexivity.
      * rewrite Z.shiftr_div_pow2, Z.div_small in H1; [|replace (2 * (NUM_BITS / 2)) with NUM_BITS by lia; lia|lia].
        eapply CT_bind; [apply assert_constant_CT; auto; apply (eqm_small nmod); auto; [apply V1|lia]|].
        intros u c2 Wf2 E2 _. apply CT_ret; [auto|]. replace NB with (2 * Z.to_nat (NUM_BITS / 2))%nat by (unfold NB; lia). eapply hbits_mono; eauto.
    + intros b c2 Wf2 E2 HB. eapply CT_weaken; [apply to_windows_CT; eauto|]. intros ws c3 _ _ (k & K1 & K2 & K3).
      assert (LB : length b = NB). { destruct HB as [_ HB]. rewrite <- (digits_length e 0 NB), <- HB, map_length. reflexivity. }
      rewrite LB in K3. eapply dec_ok_of; eauto; [apply digits_01|]. apply digits_all. unfold NB. rewrite Z2Nat.id by lia. lia.
Qed.

(** *** General scalars *)
Lemma two_inv_ok : 2 < nmod -> exists t, zinv nmod (fadd 1 1) = Some t /\ 2 * t ≡ 1 ⟨nmod⟩.
Proof.
  intros H. assert (E : fadd 1 1 = 2) by (unfold fadd; apply Z.mod_small; lia). rewrite E.
  destruct (zinv_some nmod 2 n_prime) as [t Ht]; [rewrite Z.mod_small; lia|]. exists t. split; [exact Ht|]. apply (zinv_correct nmod 2 t n_prime Ht).
Qed.
Definition ginv (e : Z) (k : nat) (st : av * list acond) (c : ctx) : Prop :=
  valid c (fst st) /\ a_val (fst st) ≡ Z.shiftr e (Z.of_nat k) ⟨nmod⟩ /\ hbits c (snd st) (digits e 0 k).
Lemma general_step_CT t e i st c : 2 * t ≡ 1 ⟨nmod⟩ -> wf c -> ginv e i st c -> CT c (general_step t e st i) (fun r c' => ginv e (S i) r c').
Proof.
  intros Ht W (V & H & F). unfold general_step. cbv zeta. pose proof (n_pos n_prime) as N2.
  eapply CT_bind; [apply assign_bit_CT; auto; apply bit_of_01|]. intros b c1 W1 E1 [V0 H0].
  assert (VV : valid c1 (fst st)) by eauto using valid_mono.
  assert (NV : fmul (fsub (a_val (fst st)) (a_val b)) t ≡ Z.shiftr e (Z.of_nat (S i)) ⟨nmod⟩).
  { rewrite H0. unf. estrip. rewrite H. rewrite (shiftr_1 e (Z.of_nat i)) by lia. replace (Z.of_nat i + 1) with (Z.of_nat (S i)) by lia. estrip.
    transitivity (Z.shiftr e (Z.of_nat (S i)) * (2 * t)); [apply eqm_eq; ring|]. rewrite Ht. apply eqm_eq. ring. }
  eapply CT_bind; [apply CT_one_line_with_last; [assumption|cbn;lia|cbn;lia| | |]|].
  - constructor; [exact VV|]. constructor; [exact V0|constructor].
  - cbn. unfold fmul. apply mod_range; auto.
  - unfold gate_sum, with_tail, tail_val, pair_val, pa, pu. cbn [map fst snd nth opt0 schema_val]. rewrite NV, H0. unf. estrip. rewrite H.
    rewrite (shiftr_1 e (Z.of_nat i)) by lia. replace (Z.of_nat i + 1) with (Z.of_nat (S i)) by lia. estrip. apply eqm_eq. ring.
  - intros x c2 W2 E2 (-> & FV & VN). cbn [fst snd] in *. apply CT_ret; [exact W2|]. split; [exact VN|]. cbn [fst snd a_val pu schema_val]. split; [exact NV|].
    rewrite digits_S. cbn [Nat.add]. apply hbits_app; [eapply hbits_mono; [|exact F]; eauto using extends_trans|].
    split; [constructor; [eauto using valid_mono|constructor]|]. cbn [map]. rewrite H0. reflexivity.
Qed.
Lemma general_limb_CT t c l : 2 * t ≡ 1 ⟨nmod⟩ -> wf c -> valid c l -> a_val l < LIMB ->
  CT c (general_limb t l) (fun bs c' => hbits c' bs (digits (a_val l) 0 108)).
Proof.
  intros Ht W V R. unfold general_limb. set (e := a_val l). assert (R0 : 0 <= e < nmod) by apply V. pose proof (n_pos n_prime).
  eapply CT_bind; [apply (CT_foldM_seq _ (ginv e) (Z.to_nat LIMB_BITS) 0 (l, []) c W)|].
  - split; [exact V|]. split; [cbn [fst]; apply eqm_eq; symmetry; apply Z.shiftr_0_r|]. split; [constructor|reflexivity].
  - intros i st c1 _ W1 _ U. apply general_step_CT; auto.
  - intros [v bits] c1 W1 E1 (V1 & H1 & F1). cbn [fst snd] in *. change (0 + Z.to_nat LIMB_BITS)%nat with 108%nat in *.
    rewrite Z.shiftr_div_pow2, Z.div_small in H1; [|assert (LIMB = 2 ^ 108) by reflexivity; change (Z.of_nat 108) with 108; lia|lia].
    eapply CT_bind; [apply assert_constant_CT; auto; apply (eqm_small nmod); auto; [apply V1|lia]|].
    intros u c2 W2 E2 _. apply CT_ret; [exact W2|]. eapply hbits_mono; eauto.
Qed.
End S.

Section General.
Context {NM : NMod}.
Hypothesis n_prime : prime nmod.
Variable r : Z.
Variable J : rinfo.
Hypothesis JO : info_ok r J.
Hypothesis r_prime : prime r.

Lemma limbs_digits : forall ls, Forall (fun a => 0 <= a_val a < LIMB) ls ->
  limbs_value a_val ls = bin_le (concat (map (fun l => digits (a_val l) 0 108) ls))
  /\ Forall (fun x => x = 0 \/ x = 1) (concat (map (fun l => digits (a_val l) 0 108) ls))
  /\ length (concat (map (fun l => digits (a_val l) 0 108) ls)) = (108 * length ls)%nat.
Proof.
  induction 1 as [|l ls R F (I1 & I2 & I3)]; [cbn; auto|]. cbn [map concat limbs_value]. split; [|split].
  - rewrite bin_le_app, digits_length, digits_all, I1; [reflexivity|]. change (Z.of_nat 108) with 108. assert (LIMB = 2 ^ 108) by reflexivity. lia.
  - apply Forall_app. split; [apply digits_01|exact I2].
  - rewrite app_length, digits_length, I3. cbn [length]. lia.
Qed.
Lemma decompose_general_CT c W s v : wf c -> (1 <= W)%nat -> cr r J c s v ->
  CT c (decompose_scalar_general J W s) (fun ws c' => dec_ok c' W (108 * ri_limbs J) (v mod r) ws).
Proof.
  intros Wf W1 Hs. unfold decompose_scalar_general. pose proof (n_pos n_prime) as N2.
  assert (N3 : 2 < nmod) by (pose proof (io_red_vn _ _ JO); assert (LIMB = 2 ^ 108) by reflexivity; lia).
  destruct (two_inv_ok n_prime N3) as (t & Et & Ht). rewrite Et. apply CT_opt_k with (x := t); [reflexivity|].
  eapply CT_bind; [eapply (reduce_C r J JO); eauto|]. intros s' c1 Wf1 E1 [[(HO & _ & HV) Hv] Ht1].
  pose proof (iwf_small J a_val s' (hk_w _ _ _ HO) Ht1) as FS.
  eapply (CT_bind c1 _ _ (fun bss c' => hbits c' (concat bss) (concat (map (fun l => digits (a_val l) 0 108) (i_limbs s'))))).
  - destruct HO as [HL _ _]. clear - Wf1 HL FS n_prime Ht. revert c1 Wf1 HL. generalize dependent (i_limbs s').
    induction l as [|l ls IH]; intros FS c1 Wf1 HL; cbn [mapM].
    + apply CT_ret; [auto|]. split; [constructor|reflexivity].
    + inversion_clear FS. inversion_clear HL.
      eapply CT_bind; [apply (general_limb_CT n_prime t); auto; lia|]. intros bs c2 Wf2 E2 HB.
      eapply CT_bind; [apply IH; auto|]. { eapply Forall_impl; [|eassumption]. intros a. apply valid_mono, E2. }
      intros bss c3 Wf3 E3 HBs. apply CT_ret; [auto|]. cbn [concat map]. apply hbits_app; [eapply hbits_mono; eauto|exact HBs].
  - intros bss c2 Wf2 E2 HB. eapply CT_weaken; [apply to_windows_CT; eauto|]. intros ws c3 _ _ (k & K1 & K2 & K3).
    destruct (limbs_digits _ FS) as (D1 & D2 & D3).
    assert (LB : length (concat bss) = (108 * ri_limbs J)%nat).
    { destruct HB as [_ HB]. rewrite <- (wf_len _ _ _ (hk_w _ _ _ HO)), <- D3, <- HB, map_length. reflexivity. }
    unfold acond in *. rewrite LB in K3. eapply dec_ok_of; eauto. rewrite <- D1.
    assert (EV : limbs_value a_val (i_limbs s') = val a_val s') by (rewrite <- int_value_val; reflexivity).
    rewrite EV. pose proof (w_pos r r_prime). rewrite <- (Z.mod_small (val a_val s') r); [exact Hv|].
    split; [apply (wf_val _ _ _ (hk_w _ _ _ HO))|apply HV; exact Ht1].
Qed.
End General.
