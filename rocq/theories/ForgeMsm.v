(** A run of the multi-scalar multiplication of one point in which the last digit is 2:
    the windows before the last one leave the accumulator as it was. *)
From Verif Require Import Prelude FieldZ Circuit Context Spec Logic ModArith Prims BaseChip BaseProofs
  RangeInfo RangeChip IntegerChip SpecInt InfoProofs IntArith RangeProofs IntInv IntSound IntComplete IntBridge
  IntRes EccChip SpecEcc Curve EccArith EccProofs EccHonest EccEncode ScalarChip ScalarProofs Msm ParWindows MsmProofs MsmSound
  SpecSelect SelectProofs HonestLogic HonestMsm HonestScalar SpecShape SpecCost Cost SpecSchedule TotalLogic TotalMsm TotalTop Forge ForgeDec ForgeRun.

Section Logic.
Context {NM : NMod}.
Lemma CTF_ubind {X Y} c (m : M (uresult X)) (k : X -> M (uresult Y)) (Q : X -> ctx -> Prop) R :
  UT c m Q -> (forall x c', wf c' -> extends c c' -> Q x c' -> CTF c' (k x) R) -> CTF c (ubind m k) R.
Proof. intros Hm Hk. unfold ubind. eapply CTF_bind; [apply CTF_of; exact Hm|]. intros r c' W E (x & -> & K). exact (Hk x c' W E K). Qed.
Lemma CTF_cbind {X Y} c (m : M X) (k : X -> M Y) (Q : X -> ctx -> Prop) R :
  CT c m Q -> (forall x c', wf c' -> extends c c' -> Q x c' -> CTF c' (k x) R) -> CTF c (mbind m k) R.
Proof. intros Hm Hk. eapply CTF_bind; [apply CTF_of; exact Hm|exact Hk]. Qed.
End Logic.

Section R.
Context {NM : NMod}.
Variable w : Z.
Variable I : rinfo.
Hypothesis IO : info_ok w I.
Hypothesis n_prime : prime nmod.
Hypothesis w_prime : prime w.
Hypothesis HD : ri_d_bits I mod 108 <> 0.
Hypothesis even_bits : Z.odd NUM_BITS = false.
Variable cv_b : Z.
Hypothesis b_range : 0 < cv_b < w.
Local Notation hv := (hv w I cv_b).
Local Notation hq := (hq w I).
Local Notation OC := (on_curve w cv_b).
Variables xg yg xr yr xs ys : Z.
Local Notation G := (Aff xg yg).
Local Notation R := (Aff xr yr).
Local Notation S := (Aff xs ys).
Local Notation Q := (Aff (2 * xs - xr) (2 * ys - yr)).
Variables G2 L0 L1 B C D : pt.
Hypothesis OCG : OC G.
Hypothesis OCR : OC R.
Hypothesis H_S : chord w R G S.
Hypothesis T_x : twice_ok w I xs xr.
Hypothesis T_y : twice_ok w I ys yr.
Hypothesis H_L0 : chord w R (pt_neg w G) L0.
Hypothesis H_L1 : chord w Q (pt_neg w G) L1.
Hypothesis H_G2 : tangent w G G2.
Hypothesis H_back : chord w L0 G2 S.
Hypothesis H_A : chord w S (pt_neg w R) G.
Hypothesis H_B : chord w L1 G2 B.
Hypothesis H_C : chord w B (pt_neg w R) C.
Hypothesis H_D : chord w C (pt_neg w G) D.
Local Notation m := (Z.to_nat NUM_BITS).

Definition picked (i : nat) : pt := if (i =? m - 1)%nat then Q else R.
Definition lined (i : nat) : pt := if (i =? m - 1)%nat then L1 else L0.
Lemma OCS : OC S.
Proof. destruct H_S as [_ A]. exact (pt_add_on w cv_b w_prime _ _ _ OCR OCG A). Qed.
Lemma pick_forged c a0 a1 b i : wf c -> hq c a0 R -> red a0 -> hq c a1 S -> red a1 -> valid c b -> a_val b = (if (i =? m - 1)%nat then 2 else 0) ->
  CT c (bisec_candidate_non_zero I [a0; a1] [b]) (fun r c' => hq c' r (picked i)).
Proof.
  intros W H0 R0 H1 R1 V E. unfold bisec_candidate_non_zero. cbn [foldM bisec_pairs].
  pose proof OCR as (A1 & A2 & _). pose proof OCS as (A3 & A4 & _).
  apply (hq_coords w I w_prime) in H0; auto. apply (hq_coords w I w_prime) in H1; auto.
  eapply (CT_bind _ _ _ (fun cs c' => exists r, cs = [r] /\ hq c' r (picked i))).
  2: { intros cs c' W' E' (r & -> & H). apply CT_assert_k; [reflexivity|]. apply (CT_nth c' _ 0 r); auto. }
  assert (K : CT c (ecc_bisec_non_zero_point I b a1 a0) (fun r c' => hq c' r (picked i))).
  { unfold picked. destruct (i =? m - 1)%nat.
    - eapply CT_weaken; [eapply (bisec_nz_2 w I IO n_prime w_prime c b a1 a0 xs ys xr yr); eauto|]. intros r c' _ _ H. do 2 eexists. split; [exact H|].
      cbn [dec]. destruct T_x as [_ ?]. destruct T_y as [_ ?]. rewrite !Z.mod_small by lia. reflexivity.
    - eapply CT_weaken; [eapply (ecc_bisec_nz_C w I IO n_prime c b false a1 a0 xs ys xr yr); eauto; split; [exact V|exact E]|]. intros r c' _ _ H. do 2 eexists. split; [exact H|].
      cbn [dec]. rewrite !Z.mod_small by lia. reflexivity. }
  eapply (CT_bind _ _ _ (fun cs c' => exists r, cs = [r] /\ hq c' r (picked i))); [eapply CT_bind; [exact K|]|].
  - intros p c' W' E' Hp. apply CT_ret_k. apply (CT_ret c' [p]); [exact W'|]. exists p. split; [reflexivity|exact Hp].
  - intros cs c' W' E' H. apply CT_ret; auto.
Qed.

Lemma window_forged c an a0 a1 ws i : wf c -> (i < m)%nat -> hq c an (pt_neg w G) -> hq c a0 R -> red a0 -> hq c a1 S -> red a1 -> digits_are 2 c m ws ->
  UT c (window_body I (fun _ => bisec_candidate_non_zero I) an [[a0; a1]] [[ws]] i) (fun r c' => hq c' r (lined i)).
Proof.
  intros W Hi Hn H0 R0 H1 R1 [_ HW]. destruct (HW i Hi) as (b & Nb & Vb & Eb).
  unfold window_body. cbn [length seq ufoldM]. eapply UT_ubind.
  - apply (CT_nth_k _ _ _ [ws]); [reflexivity|]. eapply UT_bind with (Q := fun bs c' => bs = [b]).
    { cbn [mapM]. eapply CT_bind with (Q := fun x _ => x = b).
      - apply (CT_nth_k _ _ _ [b]); [exact Nb|]. apply (CT_nth _ _ 0 b); auto.
      - intros x c' W' E' ->. apply CT_ret_k. apply CT_ret; auto. }
    intros bs c1 W1 E1 ->. apply (CT_nth_k _ _ _ [a0; a1]); [reflexivity|].
    eapply UT_bind; [apply (pick_forged c1 a0 a1 b i); auto; try (eapply hq_mono; eauto); eapply valid_mono; eauto|].
    intros ci c2 W2 E2 Hci. cbv beta in Hci.
    apply (add_Q w I IO n_prime w_prime HD c2 ci an (picked i) (pt_neg w G) (lined i)); auto.
    + eapply hq_mono; [|exact Hn]. eapply extends_trans; eauto.
    + unfold picked, lined. destruct (i =? m - 1)%nat; [exact H_L1|exact H_L0].
  - intros r c' W' E' H. apply UT_ret; auto.
Qed.

Lemma batch_forged c p s : wf c -> hv c p G -> valid c s -> a_val s = 2 ->
  CTF c (msm_batch_on_group_non_zero_without_select_chip I cv_b (forged_dec 2) [p] [s] (Some (xg, yg)) (Some (xr, yr)))
        (fun r c' => exists r', r = UOk r' /\ exists x y, hp w I c' r' x y false /\ dec w x y false = D).
Proof.
  intros W Hp Vs Es. unfold msm_batch_on_group_non_zero_without_select_chip, msm_batch. pose proof (IntInv.n_big w I IO) as NB.
  assert (N2 : 2 < nmod) by (change (2 ^ 108) with 324518553658426726783156020576256 in NB; lia).
  eapply (CTF_cbind _ _ _ (fun l c' => exists q, l = [q] /\ hq c' q G)).
  { cbn [mapM]. eapply CT_bind; [apply (reduce_T w I IO n_prime w_prime cv_b c p G W Hp)|]. intros q c1 W1 E1 (Hq & _). apply CT_ret_k. apply CT_ret; [auto|].
    exists q. split; [reflexivity|]. apply (hq_of w I cv_b). exact Hq. }
  intros l c1 W1 E1 (q & -> & Hq).
  eapply CTF_cbind; [apply (assign_T w I IO n_prime w_prime HD cv_b b_range c1 xg yg W1 OCG)|]. intros acc0 c2 W2 E2 (Va & _).
  eapply CTF_cbind; [apply (assign_T w I IO n_prime w_prime HD cv_b b_range c2 xr yr W2 OCR)|]. intros line c3 W3 E3 (Vl & Rl).
  apply hq_of in Va. apply hq_of in Vl.
  eapply CTF_cbind; [apply (neg_Q w I IO n_prime w_prime c3 acc0 G W3); eapply hq_mono; eauto|]. intros an0 c4 W4 E4 Van0. cbv beta in Van0.
  eapply CTF_cbind; [eapply (reduce_Q w I IO n_prime w_prime); eauto|]. intros an c5 W5 E5 (Van & _).
  eapply CTF_cbind; [apply (neg_Q w I IO n_prime w_prime c5 line R W5); eapply hq_mono; [exact (extends_trans _ _ _ E4 E5)|exact Vl]|]. intros ln0 c6 W6 E6 Vln0. cbv beta in Vln0.
  eapply CTF_cbind; [eapply (reduce_Q w I IO n_prime w_prime); eauto|]. intros ln c7 W7 E7 (Vln & _).
  cbv zeta. change ((length [q] + 2 - 1) / 2)%nat with 1%nat. change ((length [q] + 1 - 1) / 1)%nat with 1%nat. change (negb (1 =? 0)%nat) with true. 
  change (chunks 1 [q]) with [[q]].
  eapply (CTF_cbind _ _ _ (fun _ _ => True)); [apply CT_ret; auto|]. intros u c7' W7' E7' _. clear u.
  pose proof (extends_trans _ _ _ E4 (extends_trans _ _ _ E5 (extends_trans _ _ _ E6 (extends_trans _ _ _ E7 E7')))) as E37.
  pose proof (extends_trans _ _ _ E2 (extends_trans _ _ _ E3 E37)) as E17.
  eapply (CTF_ubind _ _ _ (fun css c' => exists s', css = [[line; s']] /\ hq c' s' S /\ red s')).
  { unfold all_candidates. cbn [length seq combine ufoldM fst snd app]. eapply UT_ubind.
    2: { intros x d Wd Ed H. apply UT_ret; [exact Wd|exact H]. }
    change (Nat.even 0) with true. cbv iota. eapply (UT_ubind _ _ _ (fun cl c' => exists s', cl = [line; s'] /\ hq c' s' S /\ red s')).
    2: { intros cl d Wd Ed (s' & -> & H). apply UT_ret; [exact Wd|]. exists s'. split; [reflexivity|exact H]. }
    unfold group_candidates. apply CT_ret_k. change (seq 1 (2 ^ length [q] - 1)) with [1%nat]. cbn [ufoldM]. eapply UT_ubind.
    2: { intros x d Wd Ed H. apply UT_ret; [exact Wd|exact H]. }
    change (low_pos 1) with 0%nat. change (1 - 2 ^ 0)%nat with 0%nat. apply (CT_nth_k _ _ _ line); [reflexivity|]. apply (CT_nth_k _ _ _ q); [reflexivity|].
    eapply UT_ubind; [apply (add_Q w I IO n_prime w_prime HD c7' line q R G S); auto; [eapply hq_mono; [exact E37|exact Vl]|eapply hq_mono; [exact E17|exact Hq]]|].
    intros s0 d Wd Ed Hs0. cbv beta in Hs0. eapply UT_bind; [eapply (reduce_Q w I IO n_prime w_prime); eauto|]. intros s' d2 Wd2 Ed2 Hs'. apply CT_ret_k. apply UT_ret; [auto|].
    exists s'. split; [reflexivity|exact Hs']. }
  intros css c8 W8 E8 (s' & -> & Vs' & Rs').
  pose proof (extends_trans _ _ _ E1 (extends_trans _ _ _ E17 E8)) as E08.
  eapply (CTF_bind _ _ _ (fun bits c' => exists ws, bits = [ws] /\ digits_are 2 c' m ws)).
  { cbn [mapM]. eapply CTF_bind; [apply (forged_dec_CTF n_prime N2 2 even_bits c8 s ltac:(lia) W8); [eapply valid_mono; eauto|exact Es]|].
    intros ws d Wd Ed Hws. apply CTF_of. apply CT_ret_k. apply CT_ret; [auto|]. exists ws. split; [reflexivity|exact Hws]. }
  intros bits c9 W9 E9 (ws & -> & Hws). apply CTF_of.
  apply (CT_nth_k _ _ _ ws); [reflexivity|]. pose proof Hws as [Lws _]. rewrite Lws.
  change (chunks 1 [ws]) with [[ws]].
  pose proof (extends_trans _ _ _ E8 E9) as E79. pose proof (num_bits_2 N2) as NB2. assert (m1 : (1 <= m)%nat) by lia.
  assert (Van9 : hq c9 an (pt_neg w G)).
  { eapply hq_mono; [|exact Van]. eapply extends_trans; [exact E6|]. eapply extends_trans; [exact E7|]. eapply extends_trans; eauto. }
  assert (Vln9 : hq c9 ln (pt_neg w R)) by (eapply hq_mono; [|exact Vln]; eapply extends_trans; eauto).
  assert (Vl9 : hq c9 line R) by (eapply hq_mono; [|exact Vl]; eapply extends_trans; eauto).
  eapply (UT_ubind _ _ _ (fun hl c' => Forall2 (fun i x => hq c' x (lined i)) (seq 0 m) hl)).
  { eapply (UT_par_windows (window_body I (fun _ => bisec_candidate_non_zero I) an [[line; s']] [[ws]])) with (Q := fun i x c' => hq c' x (lined i)) (base := c9) (n := m); [| | | |reflexivity|exact m1|exact W9].
    - intros i. apply uapp_of, appends_window_body. intros. apply appends_bisec_candidate.
    - intros i j. apply window_body_cost. intros g cs bits bits' Hb. apply co_bisec_candidate_non_zero; [|exact Hb]. clear. induction cs; constructor; [apply tnz_refl|auto].
    - intros i x d d' E H. eapply hq_rext; eauto.
    - intros i d Hi Wd Rd. apply window_forged; auto.
      + eapply hq_rext; [exact Rd|exact Van9].
      + eapply hq_rext; [exact Rd|exact Vl9].
      + eapply hq_rext; [exact Rd|]. eapply hq_mono; [exact E9|exact Vs'].
      + destruct Hws as [HL HW]. split; [exact HL|]. intros j Hj. destruct (HW j Hj) as (b & Nb & Vb & Eb). exists b. split; [exact Nb|]. split; [eapply valid_rext; eauto|exact Eb]. }
  intros hl c10 W10 E10 FL. cbv beta in FL.
  change (length [[ws]]) with 1%nat. change (Nat.odd 1) with true. cbv iota.
  eapply (UT_ubind _ _ _ (fun acc c' => hq c' acc C)).
  { eapply UT_weaken; [apply (UT_ufoldM _ _ (fun pre acc c' => hq c' acc (if (length pre =? m)%nat then C else G))); [exact W10| |]|].
    - cbn [length]. destruct (Nat.eqb_spec 0 m); [lia|]. eapply hq_mono; [|exact Va]. eapply extends_trans; [exact E3|]. eapply extends_trans; [exact E37|]. eapply extends_trans; eauto.
    - intros pre wi post acc d Es' Wd Ed Hacc. destruct (nth_seq_pre _ _ _ _ _ Es') as [Ei Lpre]. cbn [Nat.add] in Ei. subst wi. set (i := length pre) in *.
      destruct (Nat.eqb_spec i m) as [E|_] in Hacc; [lia|].
      eapply UT_ubind; [apply (double_Q w I IO n_prime w_prime HD d acc G G2); auto|]. intros acc1 d1 Wd1 Ed1 Hacc1. cbv beta in Hacc1.
      destruct (nth_lt hl i) as (a & Ha); [pose proof (Cost.F2_len _ _ _ FL) as LL; rewrite seq_length in LL; lia|].
      apply (CT_nth_k _ _ _ a); [exact Ha|].
      assert (Hl : hq d1 a (lined i)).
      { destruct (F2_nth2 _ _ _ FL _ _ Ha) as (j & Hj & K). assert (j = i) as -> by (rewrite (nth_error_nth' _ 0%nat) in Hj by (rewrite seq_length; lia); rewrite seq_nth in Hj by lia; injection Hj as <-; reflexivity).
        eapply hq_mono; [|exact K]. eapply extends_trans; eauto. }
      eapply UT_ubind; [apply (add_Q w I IO n_prime w_prime HD d1 a acc1 (lined i) G2 (if (i =? m - 1)%nat then B else S)); auto; unfold lined; destruct (i =? m - 1)%nat; [exact H_B|exact H_back]|].
      intros acc2 d2 Wd2 Ed2 Hacc2. cbv beta in Hacc2. rewrite app_length. cbn [length]. rewrite Nat.add_1_r. fold i.
      apply (add_Q w I IO n_prime w_prime HD d2 acc2 ln (if (i =? m - 1)%nat then B else S) (pt_neg w R)); auto.
      + eapply hq_mono; [|exact Vln9]. eapply extends_trans; [exact E10|]. eapply extends_trans; [exact Ed|]. eapply extends_trans; eauto.
      + destruct (Nat.eqb_spec i (m - 1)), (Nat.eqb_spec (Datatypes.S i) m); try lia; [exact H_C|exact H_A].
    - intros acc d _ _ H. rewrite seq_length, Nat.eqb_refl in H. exact H. }
  intros acc c11 W11 E11 (x1 & y1 & H1 & EC). destruct (hq_mono w I _ _ _ _ (extends_trans _ _ _ E10 E11) Van9) as (x2 & y2 & H2 & EN).
  pose proof H_D as HDD. rewrite EC, EN in HDD. destruct HDD as [NE AD]. cbn [dec] in NE.
  eapply UT_bind; [apply (downgrade_C w I n_prime); [auto|exact H1]|]. intros p1 c12 W12 E12 Hp1. cbv beta in Hp1.
  eapply UT_bind; [eapply (to_pointc_C w I IO); eauto|]. intros p2 c13 W13 E13 (l & kk & Hp2 & TO).
  eapply UT_bind; [apply (downgrade_C w I n_prime); [auto|]|].
  { eapply hn_mono; [exact (extends_trans _ _ _ E12 E13)|exact H2]. }
  intros p3 c14 W14 E14 Hp3. cbv beta in Hp3.
  eapply UT_bind; [eapply (ecc_add_chord w I IO n_prime w_prime HD); [auto|eapply hpc_mono; [exact E14|exact Hp2]|exact Hp3|exact NE]|].
  intros r c15 W15 E15 (x & y & Hr & Ad). apply UT_ret; [auto|]. exists x, y. split; [exact Hr|].
  pose proof (w_pos w w_prime). cbn [dec] in *.
  eapply (chord_unique w w_prime _ _ _ _ _ _ _ _ NE Ad AD); apply Z.mod_pos_bound; lia.
  Unshelve. all: apply Z.mod_pos_bound; pose proof (w_pos w w_prime); lia.
Qed.

Lemma msm_forged c p s k : wf c -> hp w I c p xg yg k -> k = false -> valid c s -> a_val s = 2 ->
  CTF c (msm I cv_b (forged_dec 2) bisec (assign_constant 0) (Some (xg, yg)) (Some (xg, yg)) (Some (xr, yr)) None [p] [s])
        (fun r c' => snd r = None /\ exists x y, hp w I c' (fst r) x y false /\ dec w x y false = D).
Proof.
  intros W Hp -> Vs Es. unfold msm, msm_unsafe. pose proof (IntInv.n_big w I IO) as NB.
  assert (N2 : 2 < nmod) by (change (2 ^ 108) with 324518553658426726783156020576256 in NB; lia).
  pose proof OCG as (Rx & Ry & _).
  eapply (CTF_bind _ _ _ (fun r c' => exists r', r = (UOk r', None) /\ exists x y, hp w I c' r' x y false /\ dec w x y false = D)).
  2: { intros r c' W' E' (r' & -> & H). apply CTF_of. cbn. apply CT_ret; [auto|]. split; [reflexivity|exact H]. }
  eapply CTF_cbind; [apply (assign_T w I IO n_prime w_prime HD cv_b b_range c xg yg W OCG)|]. intros n c1 W1 E1 (Vn & _).
  eapply CTF_cbind; [apply (assign_constant_CT c1 0 W1); lia|]. intros z c2 W2 E2 (Vz & Ez).
  eapply (CTF_cbind _ _ _ (fun l c' => exists q t, l = [(q, t)] /\ hv c' q G /\ valid c' t /\ a_val t = 2)).
  { cbn [combine mapM fst snd]. pose proof (extends_trans _ _ _ E1 E2) as E02.
    eapply (CT_bind _ _ _ (fun qt c' => hv c' (fst qt) G /\ valid c' (snd qt) /\ a_val (snd qt) = 2)).
    2: { intros [q t] d Wd Ed H. apply CT_ret_k. apply CT_ret; [auto|]. exists q, t. split; [reflexivity|exact H]. }
    destruct Hp as (A1 & A2 & A3).
    eapply CT_bind; [apply (bisec_CT n_prime c2 (p_z p) z s W2); auto; [apply (cb_mono _ _ _ _ E02) in A3; apply A3|eapply valid_mono; eauto]|].
    intros t d1 Wd1 Ed1 (Vt & Et). apply (hv_mono _ _ _ _ _ _ _ (extends_trans _ _ _ E2 Ed1)) in Vn. destruct Vn as (xn & yn & Hn & En & Cn).
    eapply CT_bind; [eapply (bisec_to_nz_C w I IO n_prime d1 p n xg yg false xn yn); [auto| |exact Hn]|].
    { eapply hp_mono; [exact (extends_trans _ _ _ E02 Ed1)|]. split; [exact A1|split; [exact A2|exact A3]]. }
    intros q d2 Wd2 Ed2 Hq. cbv beta in Hq. apply CT_ret; [auto|]. cbn [fst snd]. split; [|split].
    - exists xg, yg. split; [exact Hq|]. split; [cbn [dec]; rewrite !Z.mod_small by auto; reflexivity|exact OCG].
    - eapply valid_mono; eauto.
    - rewrite Et. destruct A3 as [_ ->]. cbn [Z.b2z]. rewrite Es. unf. rewrite Z.mul_0_l, Z.sub_0_r, Zmod_0_l, Z.add_0_l, Z.mod_mod by lia.
      rewrite (Z.mod_small 1) by lia. rewrite Z.mul_1_l. apply Z.mod_small. lia. }
  intros l c3 W3 E3 (q & t & -> & Hq & Vt & Et). cbn [map fst snd].
  eapply CTF_bind; [apply (batch_forged c3 q t W3 Hq Vt Et)|]. intros r c4 W4 E4 (r' & -> & H). apply CTF_of, CT_ret; [auto|]. exists r'. split; [reflexivity|exact H].
Qed.
End R.
