(** The two ways of picking a candidate complete and give the candidate with the number
    written in the bits. *)
From Verif Require Import Prelude FieldZ Circuit Context Spec Logic ModArith Prims BaseChip BaseProofs
  RangeInfo RangeChip IntegerChip SpecInt InfoProofs IntArith RangeProofs IntInv IntSound IntComplete IntBridge
  IntRes EccChip SpecEcc Curve EccArith EccProofs EccHonest EccEncode ScalarChip Msm ParWindows MsmProofs MsmSound
  SpecSelect SelectProofs SelectMsm HonestLogic HonestMsm HonestSel TotalLogic TotalMsm.

Section S.
Context {NM : NMod}.
Variable w : Z.
Variable I : rinfo.
Hypothesis IO : info_ok w I.
Hypothesis n_prime : prime nmod.
Hypothesis w_prime : prime w.
Variable cv_b : Z.
Local Notation L := (ri_limbs I).
Local Notation hv := (hv w I cv_b).
Local Notation tab := (tab w I cv_b).

(** *** Conditional swaps *)
Lemma bisec_T c d k a b p q : wf c -> cb c d k -> hv c a p -> hv c b q ->
  CT c (ecc_bisec_non_zero_point I d a b) (fun r c' => hv c' r (if k then p else q)).
Proof.
  intros W Hk (x1 & y1 & H1 & -> & C1) (x2 & y2 & H2 & -> & C2).
  eapply CT_weaken; [eapply (ecc_bisec_nz_C w I IO); eauto|]. intros r c' _ _ H'. destruct k; eexists; eexists; (split; [exact H'|auto]).
Qed.
Lemma bisec_pairs_T bit d : forall n cs c P, length cs = (2 * n)%nat -> wf c -> cb c bit d -> tab c P cs ->
  CT c (bisec_pairs I bit cs) (fun r c' => length r = n /\ tab c' (fun i p => P (Nat.b2n d + 2 * i)%nat p) r).
Proof.
  induction n as [|n IH]; intros cs c P Lk W B F.
  - destruct cs; [|cbn in Lk; lia]. cbn [bisec_pairs]. apply CT_ret; [auto|]. split; [reflexivity|]. intros [|i] a H; discriminate.
  - destruct cs as [|a0 [|a1 cs]]; [cbn in Lk; lia|cbn in Lk; lia|]. cbn [bisec_pairs].
    destruct (F 0%nat a0 eq_refl) as (p0 & H0 & P0). destruct (F 1%nat a1 eq_refl) as (p1 & H1 & P1).
    eapply CT_bind; [eapply bisec_T; [exact W|exact B|exact H1|exact H0]|]. intros p c1 W1 E1 Hp. cbv beta in Hp.
    eapply CT_bind; [apply (IH cs c1 (fun i => P (S (S i)))); [cbn in Lk; lia|exact W1|eapply cb_mono; eauto|]|].
    { apply (tab_rext w I cv_b c c1); [apply rext_of; exact E1|]. intros i a Ha. exact (F (S (S i)) a Ha). }
    intros ps c2 W2 E2 (Lps & Fp). apply CT_ret; [auto|]. split; [cbn; lia|]. intros [|i] a Ha.
    + injection Ha as <-. eexists. split; [eapply hv_mono; [exact E2|exact Hp]|]. destruct d; [exact P1|exact P0].
    + destruct (Fp i a Ha) as (q & Hq & Pq). exists q. split; [exact Hq|]. replace (Nat.b2n d + 2 * S i)%nat with (S (S (Nat.b2n d + 2 * i))) by lia. exact Pq.
Qed.
Lemma index_snoc ds d : index_of (ds ++ [d]) = (index_of ds + 2 ^ length ds * Nat.b2n d)%nat.
Proof. induction ds as [|e ds IH]; cbn [app index_of length]; [cbn; lia|]. rewrite IH, Nat.pow_succ_r'. lia. Qed.
Lemma bisec_pick_T c cs bits ds P : wf c -> length cs = (2 ^ length bits)%nat -> tab c P cs -> Forall2 (cb c) bits ds ->
  CT c (bisec_candidate_non_zero I cs bits) (fun r c' => exists p, hv c' r p /\ P (index_of ds) p).
Proof.
  intros W Lc F B. unfold bisec_candidate_non_zero. pose proof (Cost.F2_len _ _ _ B) as LB.
  eapply CT_bind; [apply (CT_foldM c _ (fun pre cs c' => length cs = (2 ^ (length bits - length pre))%nat
      /\ tab c' (fun i p => P (index_of (firstn (length pre) ds) + 2 ^ length pre * i)%nat p) cs)); auto|].
  - split; [cbn [length]; rewrite Nat.sub_0_r; exact Lc|]. cbn [length firstn index_of]. intros i a Ha. destruct (F i a Ha) as (p & Hp & K).
    exists p. split; [exact Hp|]. rewrite Nat.pow_0_r, Nat.mul_1_l. exact K.
  - intros pre x post cs' c' E W' X' (Lc' & H).
    assert (Hx : nth_error bits (length pre) = Some x) by (rewrite E, nth_error_app2, Nat.sub_diag by lia; reflexivity).
    assert (Lp : (length pre < length bits)%nat) by (rewrite E, app_length; cbn; lia).
    destruct (F2_nth1 _ _ _ B _ _ Hx) as (d & Hd & Cd).
    eapply CT_weaken; [apply (bisec_pairs_T x d (2 ^ (length bits - S (length pre))) cs' c'); [|exact W'|eapply cb_mono; [exact X'|exact Cd]|exact H]|].
    { rewrite Lc', <- Nat.pow_succ_r'. f_equal. lia. }
    intros r c2 _ _ (Lr & Tr). rewrite app_length. cbn [length]. rewrite Nat.add_1_r. split; [exact Lr|].
    assert (EF : firstn (S (length pre)) ds = firstn (length pre) ds ++ [d]).
    { clear - Hd. revert Hd. generalize (length pre) as k. induction ds as [|e ds IH]; intros [|k] H; try discriminate; [injection H as ->; reflexivity|]. cbn [firstn app]. f_equal. apply IH. exact H. }
    rewrite EF, index_snoc. assert (LF : length (firstn (length pre) ds) = length pre) by (rewrite firstn_length; lia). rewrite LF.
    intros i a Ha. destruct (Tr i a Ha) as (p & Hp & K). exists p. split; [exact Hp|]. cbv beta in K.
    replace (index_of (firstn (length pre) ds) + 2 ^ length pre * Nat.b2n d + 2 ^ S (length pre) * i)%nat
      with (index_of (firstn (length pre) ds) + 2 ^ length pre * (Nat.b2n d + 2 * i))%nat by (rewrite Nat.pow_succ_r'; ring). exact K.
  - intros cs' c1 W1 E1 (Lc' & F1). rewrite Nat.sub_diag in Lc'. change (2 ^ 0)%nat with 1%nat in Lc'.
    apply CT_assert_k; [rewrite Lc'; reflexivity|]. destruct cs' as [|a [|? ?]]; try discriminate.
    apply (CT_nth _ _ _ a); [auto|reflexivity|]. destruct (F1 0%nat a eq_refl) as (p & Hp & K). exists p. split; [exact Hp|].
    rewrite Nat.mul_0_r, Nat.add_0_r, firstn_all2 in K by (unfold acond in *; lia). exact K.
Qed.

(** *** Select chip *)
Local Notation n1 := (n1 n_prime).
Lemma cache_integer_T c p sc g off : wf c -> hok I c p -> i_times p = 1 ->
  CT c (assign_cache_integer I p sc g off) (fun r c' => r = off + Z.of_nat L + 1 /\ hcached c' g sc off (ihs p)).
Proof.
  intros W [V1 V2 V3] H1. pose proof n1. pose proof (wf_len _ _ _ V3) as HL.
  unfold assign_cache_integer. apply CT_assert_k; [apply Z.eqb_eq; exact H1|].
  eapply CT_bind; [apply (CT_foldM_seq _ (fun k o c' => o = off + Z.of_nat k /\ hcached c' g sc off (firstn k (i_limbs p))) _ 0 _ _ W)|].
  - split; [cbn; lia|]. intros [|k] h; discriminate.
  - intros k o c1 Hk W1 E1 (-> & HJ). destruct (nth_lt (i_limbs p) k ltac:(lia)) as (l & Hl). apply (CT_nth_k _ _ _ l); [exact Hl|].
    eapply CT_bind; [apply assign_cache_value_CT; auto; eapply valid_mono; [exact E1|]; eapply Forall_nth; eauto|].
    intros u c2 W2 E2 Hu. cbv beta in Hu. clear u. apply CT_ret; [auto|]. split; [lia|].
    assert (ES : firstn (S k) (i_limbs p) = firstn k (i_limbs p) ++ [l]).
    { clear - Hl. revert k Hl. induction (i_limbs p) as [|a q IH]; intros [|k] Hl; try discriminate; [injection Hl as ->; reflexivity|]. cbn [firstn app]. f_equal. apply IH. exact Hl. }
    rewrite ES. apply hcached_app; [eapply hcached_mono; eauto|]. intros [|j] h Hj; [|destruct j; discriminate]. injection Hj as <-.
    rewrite firstn_length, Z.add_0_r. replace (Nat.min k (length (i_limbs p))) with k by lia. exact Hu.
  - intros o c1 W1 E1 (-> & HJ). eapply CT_bind; [apply assign_cache_value_CT; auto; eapply valid_mono; eauto|].
    intros u c2 W2 E2 Hu. cbv beta in Hu. clear u. apply CT_ret; [auto|]. split; [lia|].
    rewrite firstn_all2 in HJ by lia. unfold ihs. apply hcached_app; [eapply hcached_mono; eauto|].
    intros [|j] h Hj; [|destruct j; discriminate]. injection Hj as <-. rewrite Z.add_0_r, HL. exact Hu.
Qed.
Lemma selected_integer_T c p s g off : wf c -> hok I c p -> valid c s -> hcached c g (a_val s) off (ihs p) ->
  CT c (assign_selected_integer I p s g off) (fun r c' => i_times (fst r) = 1 /\ snd r = off + Z.of_nat L + 1
     /\ Forall (valid c') (ihs (fst r)) /\ map a_val (i_limbs (fst r)) = map a_val (i_limbs p) /\ a_val (i_native (fst r)) = a_val (i_native p)).
Proof.
  intros W [V1 V2 V3] Vs HC. pose proof n1. pose proof (wf_len _ _ _ V3) as HL. apply hcached_split in HC as [HC1 HC2].
  unfold assign_selected_integer.
  eapply CT_bind; [apply (CT_foldM_seq _ (fun k st c' => snd st = off + Z.of_nat k /\ Forall (valid c') (fst st) /\ map a_val (fst st) = map a_val (firstn k (i_limbs p))) _ 0 _ _ W)|].
  - split; [cbn; lia|]. split; [constructor|reflexivity].
  - intros k st c1 Hk W1 E1 (H1 & H2 & H3). destruct (nth_lt (i_limbs p) k ltac:(lia)) as (l & Hl). apply (CT_nth_k _ _ _ l); [exact Hl|].
    eapply CT_bind; [apply assign_selected_value_CT; auto|].
    { eapply valid_mono; [exact E1|]. eapply Forall_nth; eauto. }
    { eapply valid_mono; eauto. }
    { rewrite H1. eapply cached_mono; [exact E1|]. apply HC1. exact Hl. }
    intros v c2 W2 E2 [Vv Ev]. apply CT_ret; [auto|]. cbn [fst snd]. split; [lia|]. split.
    + apply Forall_app. split; [|constructor; auto]. eapply Forall_impl; [|exact H2]. intros a. apply valid_mono; auto.
    + assert (ES : firstn (S k) (i_limbs p) = firstn k (i_limbs p) ++ [l]).
      { clear - Hl. revert k Hl. induction (i_limbs p) as [|a q IH]; intros [|k] Hl; try discriminate; [injection Hl as ->; reflexivity|]. cbn [firstn app]. f_equal. apply IH. exact Hl. }
      rewrite ES, !map_app, H3. cbn [map]. rewrite Ev. reflexivity.
  - intros st c1 W1 E1 (H1 & H2 & H3). rewrite firstn_all2 in H3 by lia.
    eapply CT_bind; [apply assign_selected_value_CT; auto|].
    { eapply valid_mono; [exact E1|]. exact V2. }
    { eapply valid_mono; eauto. }
    { rewrite H1. eapply cached_mono; [exact E1|]. specialize (HC2 0%nat _ eq_refl). rewrite HL, Z.add_0_r in HC2. exact HC2. }
    intros v c2 W2 E2 [Vv Ev]. apply CT_ret; [auto|]. cbn [fst snd i_limbs i_native i_times]. split; [reflexivity|]. split; [lia|]. split; [|auto].
    unfold ihs. cbn [i_limbs i_native]. apply Forall_app. split; [|constructor; auto]. eapply Forall_impl; [|exact H2]. intros a. apply valid_mono; auto.
Qed.

Variable prefix : Z.
Local Notation KSel := (KSel I prefix).
Lemma sel_cache_T c g i a p : wf c -> hv c a p -> red a ->
  CT c (assign_cache_point_non_zero I a (prefix + Z.of_nat g) (Z.of_nat i)) (fun _ c' => KSel c' g i a).
Proof.
  intros W (x & y & [[(H1 & _) _] [(H2 & _) _]] & _) [T1 T2]. unfold assign_cache_point_non_zero.
  pose proof (wf_len _ _ _ (hk_w _ _ _ H1)) as L1. pose proof (wf_len _ _ _ (hk_w _ _ _ H2)) as L2.
  eapply CT_bind; [apply cache_integer_T; auto|]. intros o c1 W1 E1 (-> & C1).
  eapply CT_bind; [apply cache_integer_T; [auto|eapply hok_mono; eauto|auto]|]. intros o c2 W2 E2 (_ & C2).
  apply CT_ret; [auto|]. split; [unfold shape1; auto|]. unfold nhs. apply hcached_app; [eapply hcached_mono; eauto|].
  rewrite (ihs_len I _ L1). replace (0 + Z.of_nat (S L)) with (0 + Z.of_nat L + 1) by lia. exact C2.
Qed.
Lemma hlin_cb c : forall bits ds k, Forall2 (cb c) bits ds ->
  hlin (mapi_from k (fun i x => (x, fof (2 ^ Z.of_nat i))) bits) ≡ 2 ^ Z.of_nat k * Z.of_nat (index_of ds) ⟨nmod⟩.
Proof.
  induction bits as [|b bits IH]; intros ds k F; inversion_clear F as [|? d ? ds' (Vd & Ed) F']; cbn [mapi_from hlin fold_right fst snd].
  - cbn. apply eqm_eq. lia.
  - fold (hlin (mapi_from (S k) (fun i x => (x, fof (2 ^ Z.of_nat i))) bits)). rewrite (IH ds' (S k) F'), Ed. cbn [index_of].
    unfold fof. estrip. apply eqm_eq. rewrite Nat2Z.inj_succ, Z.pow_succ_r by lia. destruct d; cbn [Z.b2z Nat.b2n]; lia.
Qed.
Lemma sel_pick_T c g cs bits ds P : wf c -> (1 <= length bits <= 5)%nat -> length cs = (2 ^ length bits)%nat -> tab c P cs -> kc KSel c g cs -> Forall2 (cb c) bits ds ->
  CT c (r <- pick_candidate_non_zero cs bits ;; assign_selected_point_non_zero I (snd r) (fst r) (Z.of_nat g + prefix))
    (fun r c' => exists p, hv c' r p /\ P (index_of ds) p).
Proof.
  intros W Lb Lcs F K B. unfold pick_candidate_non_zero. pose proof (Cost.F2_len _ _ _ B) as Ls.
  pose proof (hlin_cb c bits ds 0 B) as Es.
  assert (BN : 32 <= nmod) by (apply (big_n w I); auto).
  assert (P5 : (2 ^ length ds <= 32)%nat) by (rewrite <- Ls; change 32%nat with (2 ^ 5)%nat; apply Nat.pow_le_mono_r; unfold acond in *; lia).
  pose proof (index_bound ds) as IB.
  assert (FV : Forall (fun e => valid c (fst e)) (mapi (fun i x => (x, fof (2 ^ Z.of_nat i))) bits)).
  { unfold mapi. clear - B. generalize 0%nat. induction B as [|b d bits ds (Vd & _) B IH]; intros k; cbn [mapi_from]; constructor; auto. }
  assert (LM : length (mapi (fun i x => (x, fof (2 ^ Z.of_nat i))) bits) = length bits).
  { unfold mapi. generalize 0%nat. clear. induction bits as [|b bits IH]; intros k; cbn [mapi_from length]; auto. }
  destruct (nth_lt cs (index_of ds)) as (a & Ha). { rewrite Lcs. unfold acond in *. rewrite Ls. exact IB. }
  eapply (CT_bind c _ _ (fun r c' => valid c' (fst r) /\ a_val (fst r) = Z.of_nat (index_of ds) /\ snd r = a)).
  - eapply CT_bind; [apply swc_CT; [exact n_prime|exact W|exact FV|unfold acond in *; rewrite LM; lia|discriminate]|]. intros ix c1 W1 E1 [V1 H1]. cbv beta in H1.
    unfold mapi in H1. cbn [opt0] in H1. rewrite Es in H1. change (2 ^ Z.of_nat 0) with 1 in H1.
    assert (EI : a_val ix = Z.of_nat (index_of ds)).
    { apply (eqm_small nmod); [rewrite H1; apply eqm_eq; ring|apply V1|lia]. }
    apply (CT_nth_k _ _ _ a); [|apply CT_ret; [auto|]; cbn [fst snd]; auto].
    rewrite EI, Z.mod_small, Nat2Z.id by lia. exact Ha.
  - intros [ix p] c1 W1 E1 (V1 & EI & ->). cbn [fst snd] in *.
    destruct (F _ _ Ha) as (pp & Vp & PP). destruct (K _ _ Ha) as [(S1 & S2 & S3 & S4) KC].
    apply (hcached_mono _ _ _ _ _ _ E1) in KC. apply (hv_mono _ _ _ _ _ _ _ E1) in Vp.
    destruct Vp as (x & y & [Hx Hy] & EP & C). unfold nhs in KC. apply hcached_split in KC as [K1 K2]. rewrite (ihs_len I _ S3) in K2.
    unfold assign_selected_point_non_zero.
    eapply CT_bind; [apply selected_integer_T; [auto|apply Hx|auto|rewrite EI, Z.add_comm; exact K1]|].
    intros r1 c2 W2 E2 (T1 & O1 & F1 & M1 & N1).
    eapply CT_bind; [apply selected_integer_T; [auto|eapply hok_mono; [exact E2|apply Hy]|eapply valid_mono; eauto|]|].
    { rewrite EI, Z.add_comm, O1. replace (0 + Z.of_nat L + 1) with (0 + Z.of_nat (S L)) by lia. eapply hcached_mono; eauto. }
    intros r2 c3 W3 E3 (T2 & O2 & F2 & M2 & N2). apply CT_ret; [auto|]. exists pp. split; [|exact PP]. exists x, y. split; [|auto]. split; cbn [nz_x nz_y].
    + eapply (cr_same w I c1 c3 (nz_x a)); eauto. eapply Forall_impl; [|exact F1]. intros a'. apply valid_mono; auto.
    + eapply (cr_same w I c1 c3 (nz_y a)); eauto.
Qed.
End S.
